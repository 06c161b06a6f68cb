(* Copies of a message struct: what they share and what they do not. *)
From Verif Require Import Bytes GoMap GoTime Common M5424Def M5424 Thm5424 BuilderBaseDef MBuilder ThmBuilder Heap HBuilder HParse5424 SpecHeap SpecWorld MWorld
  HOwn HRefB HRefB2 HRef5424 HRef5424b HRef5424c ThmHeap SpecCopy MCopy.
Local Open Scope nat_scope.

Lemma set_sd_same m s : structuredData m = s -> set_structuredData s m = m.
Proof. intros <-. destruct m; reflexivity. Qed.
Lemma set_sd_twice m s t : set_structuredData s (set_structuredData t m) = set_structuredData s m.
Proof. destruct m; reflexivity. Qed.
Lemma msg_none i p g g' w h a m : structuredData m = None -> msg_rel i p g w h a m -> msg_rel i p g' w h a m.
Proof.
  intros E [b [sd [W [G [B S]]]]]. exists b, sd. rewrite E in *. destruct sd; [destruct S|]. auto.
Qed.
Lemma msg_sdp i p g w h a m : msg_rel i p g w h a m -> sd_rel w g h (sdp h a) (structuredData m).
Proof. intros [b [sd [W [G [B S]]]]]. unfold sdp. rewrite G. exact S. Qed.

(* ---------- writes to the structured data ---------- *)
Lemma param_ok i p g w h a m id name v : own_ok w h -> msg_rel i p g w h a m ->
  exists h', h_write (WParam id name v) h a = Some h' /\ sstep i p g w h a (write_value (WParam id name v) m) h'.
Proof.
  intros Ho H. pose proof H as [b [sd [W [G [B S]]]]]. unfold h_write. rewrite G. cbn [write_value].
  destruct sd as [r|], (structuredData m) as [s|] eqn:Es; cbn in S; try tauto; [|exists h; split; [reflexivity|apply sstep_refl; auto]].
  destruct S as [q [S1 [S2 S3]]]. rewrite S2. pose proof S3 as [om [M1 [M2 [M3 [M4 M5]]]]]. unfold h_put_param, h_elem. rewrite M2. pose proof (M5 id) as Mi.
  destruct (mget om id) as [c|] eqn:Eo, (mget s id) as [e|] eqn:Ee; cbn in Mi; try tauto; [|exists h; split; [reflexivity|apply sstep_refl; auto]].
  destruct Mi as [Mi1 Mi2]. rewrite Mi2. eexists. split; [reflexivity|].
  eapply (inner_ok i p g w h a m r q s om id c e (mset e name v)); eauto. unfold sdp. rewrite G. reflexivity.
Qed.
Lemma delelem_ok i p g w h a m id : own_ok w h -> msg_rel i p g w h a m ->
  exists h', h_write (WDelElem id) h a = Some h' /\ sstep i p g w h a (write_value (WDelElem id) m) h'.
Proof.
  intros Ho H. pose proof H as [b [sd [W [G [B S]]]]]. unfold h_write. rewrite G. cbn [write_value].
  destruct sd as [r|], (structuredData m) as [s|] eqn:Es; cbn in S; try tauto; [|exists h; split; [reflexivity|apply sstep_refl; auto]].
  destruct S as [q [S1 [S2 S3]]]. rewrite S2. pose proof S3 as [om [M1 [M2 _]]]. rewrite M2. eexists. split; [reflexivity|].
  destruct (map_delelem g w h q s om id Ho S3 M2) as [_ [X2 X3]].
  eapply (map_put i p g w h a m r q s _ w (mdel s id)); eauto.
  - unfold sdp. rewrite G. reflexivity.
  - eapply keeps_weaken; [|exact X2]. tauto.
  - eapply step_put; eauto.
Qed.

(* ---------- the invariant ---------- *)
(* owners: the struct of message k: 2k+1; structured data number j: 2j+2; all that other pointers lead to: 0 *)
Definition crel (w : owner) (h : heap) (rs : list addr) (gs : list sdmap) (k : nat) (a : addr) (x : message * option nat) : Prop :=
  match snd x with
  | None => msg_rel (2 * k + 1) 0 0 w h a (set_structuredData None (fst x))
  | Some j => exists r s, nth_error rs j = Some r /\ nth_error gs j = Some s /\ sdp h a = Some r /\ msg_rel (2 * k + 1) 0 (2 * j + 2) w h a (set_structuredData (Some s) (fst x))
  end.
Record cinv (s : cworld) (q : pool) : Prop := CInv {
  ci_g : c_g s = p_g q;
  ci_len : length (c_msgs s) = length (heads q);
  ci_w : exists w rs, own_ok w (c_heap s) /\ length rs = length (groups q) /\
    forall k a x, nth_error (c_msgs s) k = Some a -> nth_error (heads q) k = Some x -> crel w (c_heap s) rs (groups q) k a x }.
Definition gown (q : pool) (og : option nat) : nat := match og with Some j => 2 * j + 2 | None => 2 * length (groups q) + 2 end.
Lemma crel_view w h rs q k a x : crel w h rs (groups q) k a x -> msg_rel (2 * k + 1) 0 (gown q (snd x)) w h a (view (groups q) x).
Proof.
  unfold crel, view, gown. destruct (snd x) as [j|].
  - intros [r [s [H1 [H2 [H3 H4]]]]]. rewrite H2. exact H4.
  - intros H. eapply msg_none; [|exact H]. destruct (fst x); reflexivity.
Qed.
(* what is kept keeps the relation *)
Lemma crel_keeps (P : nat * role -> Prop) w h w' h' rs rs' gs gs' k a x : keeps P w h w' h' -> P (2 * k + 1, RStruct) -> (forall r, P (0, r)) ->
  (forall j, snd x = Some j -> (forall r, P (2 * j + 2, r)) /\ nth_error rs' j = nth_error rs j /\ nth_error gs' j = nth_error gs j) ->
  crel w h rs gs k a x -> crel w' h' rs' gs' k a x.
Proof.
  intros K P1 P2 P3. unfold crel. destruct (snd x) as [j|].
  - destruct (P3 j eq_refl) as [P4 [P5 P6]]. intros [r [s [H1 [H2 [H3 H4]]]]]. exists r, s. rewrite P5, P6. split; [exact H1|]. split; [exact H2|]. split.
    + destruct H4 as [b [sd [W [G _]]]]. destruct (K _ _ W P1) as [_ E]. unfold sdp in *. rewrite E. exact H3.
    + eapply msg_keeps; eauto.
  - intros H. eapply msg_keeps; eauto.
Qed.
Lemma nth_grow {A} (l r : list A) j v : nth_error l j = Some v -> nth_error (l ++ r) j = Some v.
Proof. intros H. rewrite nth_error_app1; [exact H|]. apply nth_error_Some. congruence. Qed.
Lemma crel_gs w h rs gs rs' gs' k a x : crel w h rs gs k a x -> crel w h (rs ++ rs') (gs ++ gs') k a x.
Proof.
  unfold crel. destruct (snd x) as [j|]; auto. intros [r [s [H1 [H2 H3]]]]. exists r, s. split; [apply nth_grow; exact H1|]. split; [apply nth_grow; exact H2|exact H3].
Qed.

(* an operation on message k *)
Lemma cinv_msg s q k a x m' h' g' : nth_error (c_msgs s) k = Some a -> nth_error (heads q) k = Some x -> length (c_msgs s) = length (heads q) ->
  forall w rs, own_ok w (c_heap s) -> length rs = length (groups q) ->
  (forall k a x, nth_error (c_msgs s) k = Some a -> nth_error (heads q) k = Some x -> crel w (c_heap s) rs (groups q) k a x) ->
  sstep (2 * k + 1) 0 (gown q (snd x)) w (c_heap s) a m' h' ->
  cinv (CWorld h' (c_msgs s) g') (update q k (snd x) m' g').
Proof.
  intros Ha Hx Hl w rs Ho Hr HM [w' [S [M Hp]]]. destruct s as [h ms gw]. destruct q as [hs gs gq]. cbn [c_msgs c_heap c_g heads groups p_g] in *.
  assert (Lk : k < length hs) by (eapply nth_lt; eauto). pose proof (HM _ _ _ Ha Hx) as C. pose proof (step_keeps _ _ _ _ _ _ _ Ho S) as K. pose proof (msg_sdp _ _ _ _ _ _ _ M) as D.
  destruct x as [m og]. cbn [snd fst] in *. unfold update. destruct og as [j|].
  - destruct C as [r [t [C1 [C2 [C3 C4]]]]]. cbn [fst snd gown] in *. destruct (Hp r C3) as [Hp1 Hp2]. rewrite Hp1 in D. destruct (structuredData m') as [t'|] eqn:Et; [|destruct D].
    assert (Lj : j < length gs) by (eapply nth_lt; eauto).
    constructor; cbn [c_msgs c_heap c_g heads groups p_g]; [reflexivity|rewrite replace_len; exact Hl|]. exists w', rs. split; [apply S|]. split; [rewrite replace_len; exact Hr|].
    intros i b y Hb Hy. destruct (Nat.eq_dec k i) as [<-|N].
    + rewrite replace_same in Hy by exact Lk. injection Hy as <-. rewrite Ha in Hb. injection Hb as <-. unfold crel. cbn [fst snd]. exists r, t'.
      split; [exact C1|]. split; [apply replace_same; exact Lj|]. split; [exact Hp1|]. rewrite set_sd_same by exact Et. exact M.
    + rewrite replace_other in Hy by exact N. specialize (HM _ _ _ Hb Hy). destruct y as [my [jy|]].
      2:{ eapply crel_keeps; [exact K|cbn; lia|cbn; lia| |exact HM]. discriminate. }
      destruct (Nat.eq_dec jy j) as [->|Nj].
      * unfold crel in *. cbn [fst snd] in *. destruct HM as [r2 [t2 [D1 [D2 [D3 [b2 [sd2 [W2 [G2 [B2 S2]]]]]]]]]]. rewrite C1 in D1. injection D1 as <-. exists r, t'.
        split; [exact C1|]. split; [apply replace_same; exact Lj|]. destruct (K _ _ W2) as [W2' G2']; [cbn; lia|]. unfold sdp. rewrite G2', G2. split; [unfold sdp in D3; rewrite G2 in D3; exact D3|].
        exists b2, sd2. split; [exact W2'|]. split; [rewrite G2', G2; destruct my; reflexivity|]. split.
        -- assert (X : base_rel w' 0 h' b2 (set_structuredData (Some t2) my)) by (eapply base_keeps; [exact K|cbn; lia|exact B2]). destruct my; exact X.
        -- unfold sdp in D3. rewrite G2 in D3. subst sd2. destruct my; exact D.
      * eapply crel_keeps; [exact K|cbn; lia|cbn; lia| |exact HM]. intros z Ez. injection Ez as <-. split; [cbn; lia|]. split; [reflexivity|]. apply replace_other. auto.
  - unfold crel in C. cbn [fst snd] in C. cbn [gown groups] in *. destruct (structuredData m') as [t'|] eqn:Et.
    + destruct (sdp h' a) as [r|] eqn:Er; [|destruct D].
      constructor; cbn [c_msgs c_heap c_g heads groups p_g]; [reflexivity|rewrite replace_len; exact Hl|]. exists w', (rs ++ [r]). split; [apply S|]. split; [rewrite !app_length, Hr; reflexivity|].
      intros i b y Hb Hy. destruct (Nat.eq_dec k i) as [<-|N].
      * rewrite replace_same in Hy by exact Lk. injection Hy as <-. rewrite Ha in Hb. injection Hb as <-. unfold crel. cbn [fst snd]. exists r, t'.
        split; [rewrite <- Hr, nth_error_app2, Nat.sub_diag by lia; reflexivity|]. split; [rewrite nth_error_app2, Nat.sub_diag by lia; reflexivity|].
        split; [exact Er|]. rewrite set_sd_same by exact Et. exact M.
      * rewrite replace_other in Hy by exact N. specialize (HM _ _ _ Hb Hy). apply crel_gs. eapply crel_keeps; [exact K|cbn; lia|cbn; lia| |exact HM].
        intros z Ez. split; [|auto]. unfold crel in HM. rewrite Ez in HM. destruct HM as [r2 [t2 [_ [HM _]]]]. apply nth_lt in HM. cbn. lia.
    + constructor; cbn [c_msgs c_heap c_g heads groups p_g]; [reflexivity|rewrite replace_len; exact Hl|]. exists w', rs. split; [apply S|]. split; [exact Hr|].
      intros i b y Hb Hy. destruct (Nat.eq_dec k i) as [<-|N].
      * rewrite replace_same in Hy by exact Lk. injection Hy as <-. rewrite Ha in Hb. injection Hb as <-. unfold crel. cbn [fst snd]. rewrite set_sd_same by exact Et. eapply msg_none; eauto.
      * rewrite replace_other in Hy by exact N. specialize (HM _ _ _ Hb Hy). eapply crel_keeps; [exact K|cbn; lia|cbn; lia| |exact HM].
        intros z Ez. split; [|auto]. unfold crel in HM. rewrite Ez in HM. destruct HM as [r2 [t2 [_ [HM _]]]]. apply nth_lt in HM. cbn. lia.
Qed.
(* a new message *)
Lemma cinv_new s q a m h' w' : cinv s q -> 
  forall w rs, own_ok w (c_heap s) -> length rs = length (groups q) ->
  (forall k a x, nth_error (c_msgs s) k = Some a -> nth_error (heads q) k = Some x -> crel w (c_heap s) rs (groups q) k a x) ->
  keeps (fun _ => True) w (c_heap s) w' h' -> own_ok w' h' -> msg_rel (2 * length (c_msgs s) + 1) 0 (2 * length (groups q) + 2) w' h' a m ->
  cinv (CWorld h' (c_msgs s ++ [a]) (c_g s)) (add_new q m).
Proof.
  intros [Eg El _] w rs Ho Hr HM K Ho' M. destruct s as [h ms gw]. destruct q as [hs gs gq]. cbn [c_msgs c_heap c_g heads groups p_g] in *.
  assert (HM' : forall k b x, nth_error ms k = Some b -> nth_error hs k = Some x -> crel w' h' rs gs k b x).
  { intros k b x Hb Hx. eapply crel_keeps; [exact K|exact I|intros; exact I| |eapply HM; eauto]. auto. }
  pose proof (msg_sdp _ _ _ _ _ _ _ M) as D. unfold add_new. destruct (structuredData m) as [t|] eqn:Et.
  - destruct (sdp h' a) as [r|] eqn:Er; [|destruct D].
    constructor; cbn [c_msgs c_heap c_g heads groups p_g]; [exact Eg|rewrite !app_length, El; reflexivity|]. exists w', (rs ++ [r]). split; [exact Ho'|]. split; [rewrite !app_length, Hr; reflexivity|].
    intros k b x Hb Hx. apply nth_snoc in Hb as [Hb|[-> <-]].
    + assert (Lk : k < length ms) by (eapply nth_lt; eauto). apply nth_snoc in Hx as [Hx|[-> _]]; [|lia]. apply crel_gs. auto.
    + apply nth_snoc in Hx as [Hx|[_ <-]]; [apply nth_lt in Hx; lia|]. unfold crel. cbn [fst snd]. exists r, t.
      split; [rewrite <- Hr, nth_error_app2, Nat.sub_diag by lia; reflexivity|]. split; [rewrite nth_error_app2, Nat.sub_diag by lia; reflexivity|].
      split; [exact Er|]. rewrite set_sd_same by exact Et. exact M.
  - constructor; cbn [c_msgs c_heap c_g heads groups p_g]; [exact Eg|rewrite !app_length, El; reflexivity|]. exists w', rs. split; [exact Ho'|]. split; [exact Hr|].
    intros k b x Hb Hx. apply nth_snoc in Hb as [Hb|[-> <-]].
    + assert (Lk : k < length ms) by (eapply nth_lt; eauto). apply nth_snoc in Hx as [Hx|[-> _]]; [|lia]. auto.
    + apply nth_snoc in Hx as [Hx|[_ <-]]; [apply nth_lt in Hx; lia|]. unfold crel. cbn [fst snd]. rewrite set_sd_same by exact Et. eapply msg_none; eauto.
Qed.

(* ---------- changing owners ---------- *)
Section R.
Variables (n k G : nat) (w w' : owner).
Definition new_owner (r : role) : nat := match r with RStruct => 2 * k + 1 | RSd | ROuter | RInner _ => 2 * G + 2 | _ => 0 end.
Hypothesis HW : forall b r, w b = Some (n, r) -> w' b = Some (new_owner r, r).
Lemma ptr_own {A} r (mk : A -> cell) h p v : ptr_role r -> ptr_rel w n r mk h p v -> ptr_rel w' 0 r mk h p v.
Proof. intros Hr. destruct p, v; cbn; auto. intros [H1 H2]. split; [|exact H2]. apply HW in H1. destruct r; try contradiction; exact H1. Qed.
Lemma msg_own h a m : msg_rel n n n w h a m -> msg_rel (2 * k + 1) 0 (2 * G + 2) w' h a m.
Proof.
  intros [b [sd [W [Gt [[H1 [H2 [H3 [H4 [H5 [H6 [H7 [H8 H9]]]]]]]] S]]]]]. exists b, sd. split; [exact (HW _ _ W)|]. split; [exact Gt|]. split.
  - unfold base_rel. repeat match goal with |- _ /\ _ => split end; (eapply ptr_own; [exact I|assumption]).
  - destruct sd as [r|], (structuredData m) as [s|]; cbn in *; auto. destruct S as [o [S1 [S2 [om [M1 [M2 [M3 [M4 M5]]]]]]]]. exists o. split; [exact (HW _ _ S1)|]. split; [exact S2|].
    exists om. split; [exact (HW _ _ M1)|]. split; [exact M2|]. split; [exact M3|]. split; [exact M4|]. intros e. specialize (M5 e).
    destruct (mget om e), (mget s e); cbn in *; auto. destruct M5 as [M5 M6]. split; [exact (HW _ _ M5)|exact M6].
Qed.
End R.

Lemma cop_ok s q o : cinv s q -> exists s' q', c_op s o = Some s' /\ c_value q o = Some q' /\ cinv s' q'.
Proof.
  intros I. pose proof I as [Eg El [w [rs [Ho [Hr HM]]]]].
  assert (Both : forall k, match nth_error (c_msgs s) k, nth_error (heads q) k with Some _, Some _ | None, None => True | _, _ => False end).
  { intros k. destruct (nth_error (c_msgs s) k) eqn:Ea, (nth_error (heads q) k) eqn:Ex; auto; [apply nth_lt in Ea; apply nth_error_None in Ex|apply nth_lt in Ex; apply nth_error_None in Ea]; lia. }
  destruct o as [|best compliant b|k|k c|k v|k id name v|k id]; cbn [c_op c_value].
  - unfold h_new_message, alloc. eexists _, _. split; [reflexivity|]. split; [reflexivity|].
    apply (cinv_new s q (length (c_heap s)) empty_message _ (own_new w (length (c_heap s)) (2 * length (c_msgs s) + 1) RStruct) I w rs Ho Hr HM).
    + apply keeps_new. exact Ho.
    + apply (st_ok 0 (2 * length (c_msgs s) + 1) 0 w (c_heap s)). apply step_alloc; auto.
    + exists base_nil, None. split; [unfold own_new; rewrite Nat.eqb_refl; reflexivity|]. split; [apply hget_new|]. split; [|exact Logic.I]. unfold base_rel. cbn. tauto.
  - unfold alloc. set (h := c_heap s) in *. set (h1 := h ++ [KArr b]). set (d := Slice (length h) 0 (length b) (length b)).
    assert (Rd : slice_read h1 d = Some b).
    { unfold slice_read, d, h1. cbn [s_arr s_off s_len]. rewrite hget_new. cbn [Nat.add skipn]. rewrite Nat.leb_refl, firstn_all. reflexivity. }
    assert (Ho1 : own_ok (fun _ => None) h1) by (intros x Hx; congruence).
    destruct (h_parse_ok 0 (fun _ => None) h1 d b (h_new_machine best compliant) Ho1 (fun a r E => ltac:(discriminate)) Rd eq_refl) as [hm' [h' [r [w' [-> [_ [_ [_ [S X]]]]]]]]].
    cbn [hm_best hm_x h_new_machine] in X. change (m_compliantMsg _) with compliant in X. destruct (parse_total (new_machine best compliant) b) as [vr [ve Ep]]. rewrite Ep in X |- *.
    destruct r as [ra re| |]; cbn in X; try tauto. destruct X as [-> X].
    assert (Fr : forall x, x < length h -> hget h' x = hget h x).
    { intros x L. rewrite (st_frame _ _ _ _ _ _ _ S); [apply hget_old; exact L|unfold h1; rewrite app_length; lia| |]; discriminate. }
    assert (L1 : length h < length h') by (pose proof (st_len _ _ _ _ _ _ _ S) as L; unfold h1 in L; rewrite app_length in L; cbn in L; lia).
    destruct ra as [a|], vr as [m|]; try tauto.
    + eexists _, _. split; [reflexivity|]. split; [reflexivity|].
      set (k := length (c_msgs s)). set (G := length (groups q)).
      set (w2 := fun x => if x <? length h then w x else match w' x with Some (_, r) => Some (new_owner k G r, r) | None => None end).
      apply (cinv_new s q a m h' w2 I w rs Ho Hr HM).
      * intros x l Hx _. assert (L : x < length h) by (apply Ho; congruence). unfold w2. rewrite (proj2 (Nat.ltb_lt _ _) L). split; [exact Hx|]. apply Fr. exact L.
      * intros x Hx. unfold w2 in Hx. destruct (Nat.ltb_spec x (length h)); [lia|]. apply (st_ok _ _ _ _ _ _ _ S). destruct (w' x); congruence.
      * apply (msg_own 0 k G w' w2); [|exact X]. intros x r Hx. unfold w2. destruct (Nat.ltb_spec x (length h)) as [L|L]; [|rewrite Hx; reflexivity].
        rewrite (st_old _ _ _ _ _ _ _ S) in Hx by (unfold h1; rewrite app_length; lia). discriminate.
    + eexists _, _. split; [reflexivity|]. split; [reflexivity|]. constructor; cbn [c_msgs c_heap c_g]; [exact Eg|exact El|].
      exists w, rs. split; [intros x Hx; apply Ho in Hx; fold h in Hx; lia|]. split; [exact Hr|]. intros k a x Ha Hx.
      eapply (crel_keeps (fun _ => True) w h); [|exact Logic.I|intros; exact Logic.I|auto|eapply HM; eauto].
      intros y l Hy _. split; [exact Hy|]. apply Fr. apply Ho. congruence.
  - pose proof (Both k) as B. destruct (nth_error (c_msgs s) k) as [a|] eqn:Ea, (nth_error (heads q) k) as [x|] eqn:Ex; try tauto.
    2:{ eexists _, _. split; [reflexivity|]. split; [reflexivity|]. exact I. }
    pose proof (HM _ _ _ Ea Ex) as C. pose proof (crel_view _ _ _ _ _ _ _ C) as V. pose proof V as [b [sd [W [Gt [B1 B2]]]]]. unfold h_copy. rewrite Gt. unfold alloc.
    eexists _, _. split; [reflexivity|]. split; [reflexivity|]. set (h := c_heap s) in *. set (cell := KMsg5 b _ sd).
    set (w2 := own_new w (length h) (2 * length (c_msgs s) + 1) RStruct).
    assert (K : keeps (fun _ => True) w h w2 (h ++ [cell])) by (apply keeps_new; exact Ho).
    constructor; cbn [c_msgs c_heap c_g heads groups p_g]; [exact Eg|rewrite !app_length, El; reflexivity|]. exists w2, rs. split.
    + apply (st_ok 0 (2 * length (c_msgs s) + 1) 0 w h). apply step_alloc; auto.
    + split; [exact Hr|]. intros i c y Hc Hy. apply nth_snoc in Hc as [Hc|[-> <-]].
      * assert (Lk : i < length (c_msgs s)) by (eapply nth_lt; eauto). apply nth_snoc in Hy as [Hy|[-> _]]; [|lia]. eapply crel_keeps; [exact K|exact Logic.I|intros; exact Logic.I|auto|eapply HM; eauto].
      * apply nth_snoc in Hy as [Hy|[_ <-]]; [apply nth_lt in Hy; lia|].
        assert (N : msg_rel (2 * length (c_msgs s) + 1) 0 (gown q (snd x)) w2 (h ++ [cell]) (length h) (view (groups q) x)).
        { exists b, sd. split; [unfold w2, own_new; rewrite Nat.eqb_refl; reflexivity|]. split; [apply hget_new|]. split.
          - eapply base_keeps; [exact K|intros; exact Logic.I|exact B1].
          - eapply sd_keeps; [exact K|intros; exact Logic.I|exact B2]. }
        unfold crel in *. unfold view, gown in N. destruct (snd x) as [j|].
        -- destruct C as [r [t [C1 [C2 [C3 _]]]]]. rewrite C2 in N. exists r, t. split; [exact C1|]. split; [exact C2|]. split; [|exact N].
           unfold sdp. rewrite hget_new. unfold cell. unfold sdp in C3. rewrite Gt in C3. exact C3.
        -- eapply msg_none; [|exact N]. destruct (fst x); reflexivity.
  - pose proof (Both k) as B. unfold on_msg. destruct (nth_error (c_msgs s) k) as [a|] eqn:Ea, (nth_error (heads q) k) as [x|] eqn:Ex; try tauto.
    2:{ eexists _, _. split; [reflexivity|]. split; [reflexivity|]. exact I. }
    rewrite Eg. pose proof (h_step_ok _ _ _ w (c_heap s) a _ (p_g q) c Ho (crel_view _ _ _ _ _ _ _ (HM _ _ _ Ea Ex))) as S.
    pose proof (set_never_panics (p_g q) (view (groups q) x) c) as N. destruct (step (p_g q) (view (groups q) x) c) as [[g' m']|]; [|congruence].
    destruct S as [h' [-> S]]. eexists _, _. split; [reflexivity|]. split; [reflexivity|]. eapply cinv_msg; eauto.
  - pose proof (Both k) as B. unfold on_msg. destruct (nth_error (c_msgs s) k) as [a|] eqn:Ea, (nth_error (heads q) k) as [x|] eqn:Ex; try tauto.
    2:{ eexists _, _. split; [reflexivity|]. split; [reflexivity|]. exact I. }
    destruct (compute_ok _ _ _ w (c_heap s) a _ v Ho (crel_view _ _ _ _ _ _ _ (HM _ _ _ Ea Ex))) as [h' [-> S]]. cbn [h_with_g]. rewrite Eg.
    eexists _, _. split; [reflexivity|]. split; [reflexivity|]. eapply cinv_msg; eauto.
  - pose proof (Both k) as B. unfold on_msg. destruct (nth_error (c_msgs s) k) as [a|] eqn:Ea, (nth_error (heads q) k) as [x|] eqn:Ex; try tauto.
    2:{ eexists _, _. split; [reflexivity|]. split; [reflexivity|]. exact I. }
    destruct (param_ok _ _ _ w (c_heap s) a _ id name v Ho (crel_view _ _ _ _ _ _ _ (HM _ _ _ Ea Ex))) as [h' [-> S]]. cbn [h_with_g]. rewrite Eg.
    eexists _, _. split; [reflexivity|]. split; [reflexivity|]. eapply cinv_msg; eauto.
  - pose proof (Both k) as B. unfold on_msg. destruct (nth_error (c_msgs s) k) as [a|] eqn:Ea, (nth_error (heads q) k) as [x|] eqn:Ex; try tauto.
    2:{ eexists _, _. split; [reflexivity|]. split; [reflexivity|]. exact I. }
    destruct (delelem_ok _ _ _ w (c_heap s) a _ id Ho (crel_view _ _ _ _ _ _ _ (HM _ _ _ Ea Ex))) as [h' [-> S]]. cbn [h_with_g]. rewrite Eg.
    eexists _, _. split; [reflexivity|]. split; [reflexivity|]. eapply cinv_msg; eauto.
Qed.
Lemma cinv0 g : cinv (cworld0 g) (pool0 g).
Proof. constructor; cbn; auto. exists (fun _ => None), []. split; [intros b H; congruence|]. split; [reflexivity|]. intros [|k] a x H; discriminate. Qed.
Lemma map_eq_nth {A B C} (f : A -> C) (g : B -> C) : forall l l', length l = length l' -> (forall k a b, nth_error l k = Some a -> nth_error l' k = Some b -> f a = g b) -> map f l = map g l'.
Proof. induction l as [|x l IH]; intros [|y l'] L H; cbn in *; try discriminate; auto. f_equal; [apply (H 0); reflexivity|]. apply IH; [lia|]. intros k a b H1 H2. apply (H (S k)); assumption. Qed.

(* C63: a copy of the struct is a message of its own except for the structured data it has when it is made, which stays one object with that
   of the original, whatever is called on either afterwards. *)
Theorem copies_share_structured_data g l : exists s q, c_ops (cworld0 g) l = Some s /\ c_values (pool0 g) l = Some q /\
  map (read5 (c_heap s)) (c_msgs s) = map (fun x => Some (view (groups q) x)) (heads q).
Proof.
  assert (X : forall l s q, cinv s q -> exists s' q', c_ops s l = Some s' /\ c_values q l = Some q' /\ cinv s' q').
  { clear. induction l as [|o l IH]; intros s q I; cbn [c_ops c_values]; [exists s, q; auto|].
    destruct (cop_ok s q o I) as [s' [q' [-> [-> I']]]]. apply IH. exact I'. }
  destruct (X l _ _ (cinv0 g)) as [s [q [H1 [H2 [_ El [w [rs [_ [_ HM]]]]]]]]]. exists s, q. split; [exact H1|]. split; [exact H2|].
  apply map_eq_nth; [exact El|]. intros k a x Ha Hx. eapply msg_read. eapply crel_view. eapply HM; eauto.
Qed.
(* a message parsed, copied, and both edited: the structured data follows, the rest does not; and a copy made before there is any *)
Definition demo_copies : list cop :=
  [ CParse false false (lit "<165>4 - host app - id [x@1 k=""v""] hello"); CCopy 0; CSet 1 (SetHostname (lit "two")); CSet 1 (SetParameter (lit "x@1") (lit "k") (lit "w"));
    CSet 0 (SetElementID (lit "new")); CSet 0 (SetAppname (lit "one")); CNew; CCopy 2; CSet 2 (SetElementID (lit "a")); CSet 3 (SetElementID (lit "b")); CCopy 3; CDelElem 4 (lit "b") ].
Example demo_copies_seen : match c_ops (cworld0 (Globals [] [])) demo_copies with
  | Some s => map (fun a => match read5 (c_heap s) a with Some m => (hostname m, appname m, structuredData m) | None => (None, None, None) end) (c_msgs s)
  | None => [] end
  = [ (Some (lit "host"), Some (lit "one"), Some [(lit "new", []); (lit "x@1", [(lit "k", lit "w")])]);
      (Some (lit "two"), Some (lit "app"), Some [(lit "new", []); (lit "x@1", [(lit "k", lit "w")])]);
      (None, None, Some [(lit "a", [])]); (None, None, Some []); (None, None, Some []) ].
Proof. vm_compute. reflexivity. Qed.
