(* C73: what the non-transparent framing parser gives to its listener does not depend on the reuse of the memory it reads from. *)
From Verif Require Import Bytes GotoLang GoMap GoTime Common M5424Def M5424 Spec5424 Ref5424c Thm5424 BuilderBaseDef MBuilder Heap HBuilder HExec HParse5424 SpecHeap SpecWorld MWorld
  HOwn HRefB HRefB2 HRef5424 HRef5424b HRef5424c ThmHeap HBufio MOctet SpecDeliver MOctetMem ThmOctetMem NonTransparentBaseDef GenNT ANT MNT SpecNT ThmNT SpecDeliverNT MNtMem.
Local Open Scope nat_scope.

(* ---------- buffers may be forgotten and taken in another order ---------- *)
Lemma Forall2_combine {A B} (R : A -> B -> Prop) l : forall l', Forall2 R l l' <-> length l = length l' /\ forall p, In p (combine l l') -> R (fst p) (snd p).
Proof.
  induction l as [|x l IH]; intros [|y l']; cbn; split; try (intros H; inversion H; fail); try (intros [H _]; discriminate H).
  - intros _. split; [reflexivity|tauto].
  - constructor.
  - intros H. inversion H; subst. apply IH in H5 as [E F]. split; [congruence|]. intros p [<-|Hp]; auto.
  - intros [E F]. constructor; [apply (F (x, y)); auto|]. apply IH. split; [congruence|]. intros p Hp. apply F. auto.
Qed.
Definition with_buf (l : list slice) (s : world) : world := World (w_heap s) (w_mach s) l (w_msgs s) (w_g s) (w_trace s).
Definition with_vbuf (l : list bytes) (v : values) : values := Values (v_mach v) l (v_msgs v) (v_g v) (v_trace v).
Lemma inv_sub s v l l' : inv s v -> length l = length l' -> incl (combine l l') (combine (w_buf s) (v_buf v)) -> NoDup (map s_arr l) -> inv (with_buf l s) (with_vbuf l' v).
Proof.
  intros [Eg Et Hma Hlen Hnd [w [Ho [Hx [HB HM]]]]] L Hi N. constructor; cbn; auto. exists w. split; [exact Ho|]. split; [exact Hx|]. split; [|exact HM].
  apply Forall2_combine. split; [exact L|]. intros p Hp. apply Forall2_combine in HB as [_ F]. apply F, Hi, Hp.
Qed.
Definition w3 (a b c : slice) (s : world) : world := consW a (consW b (consW c s)).
Definition v3 (a b c : bytes) (v : values) : values := consV a (consV b (consV c v)).
Lemma swap12 a b c x y z s v : inv (w3 a b c s) (v3 x y z v) -> inv (w3 b a c s) (v3 y x z v).
Proof.
  intros I. pose proof (in_nodup _ _ I) as N. destruct s as [h ma bu ms g tr], v as [vma vbu vms vg vtr].
  apply (inv_sub _ _ (b :: a :: c :: bu) (y :: x :: z :: vbu) I).
  - cbn. pose proof (in_w _ _ I) as [w [_ [_ [F _]]]]. apply Forall2_combine in F as [F _]. exact F.
  - intros p. cbn. tauto.
  - cbn in *. inversion N as [|? ? N1 N2]; subst. inversion N2 as [|? ? N3 N4]; subst. constructor; [intros [E|H]; [apply N1; left; congruence|tauto]|].
    constructor; [|exact N4]. intros H. apply N1. right. exact H.
Qed.
Lemma swap13 a b c x y z s v : inv (w3 a b c s) (v3 x y z v) -> inv (w3 c b a s) (v3 z y x v).
Proof.
  intros I. pose proof (in_nodup _ _ I) as N. destruct s as [h ma bu ms g tr], v as [vma vbu vms vg vtr].
  apply (inv_sub _ _ (c :: b :: a :: bu) (z :: y :: x :: vbu) I).
  - cbn. pose proof (in_w _ _ I) as [w [_ [_ [F _]]]]. apply Forall2_combine in F as [F _]. exact F.
  - intros p. cbn. tauto.
  - cbn in *. inversion N as [|? ? N1 N2]; subst. inversion N2 as [|? ? N3 N4]; subst. inversion N4 as [|? ? N5 N6]; subst.
    constructor; [intros [E|[E|H]]; [apply N3; left; congruence|apply N1; right; left; congruence|tauto]|].
    constructor; [intros [E|H]; [apply N1; left; congruence|apply N3; right; exact H]|].
    constructor; [|exact N6]. intros H. apply N1. right. right. exact H.
Qed.
Lemma script3 d1 d2 d3 a1 a2 a3 l : forall s v, inv (w3 d1 d2 d3 s) (v3 a1 a2 a3 v) ->
  exists s' v', w_ops s l = Some s' /\ v_ops v l = Some v' /\ inv (w3 d1 d2 d3 s') (v3 a1 a2 a3 v').
Proof.
  induction l as [|o l IH]; intros s v I; cbn [w_ops v_ops]; [exists s, v; auto|].
  destruct (op_ok _ _ (shift (shift (shift o))) I) as [s1 [t1 [E1 [E2 I1]]]]. unfold w3 in E1. unfold v3 in E2. rewrite !w_shift in E1. rewrite !v_shift in E2.
  destruct (w_op s o) as [s2|]; [|discriminate E1]. destruct (v_op v o) as [t2|]; [|discriminate E2]. cbn in E1, E2. injection E1 as <-. injection E2 as <-.
  apply IH. exact I1.
Qed.

(* ---------- what was delivered ---------- *)
Lemma script_next_skipn n (l : list (list op)) : script_next (skipn n l) = skipn (S n) l.
Proof. revert l. induction n as [|n IH]; intros [|x l]; try reflexivity. cbn [skipn]. rewrite IH. reflexivity. Qed.
Lemma deliver_snoc rs : forall v0 sc v r, deliver v0 rs sc = Some v -> deliver v0 (rs ++ [r]) sc = v_ops (vkeep (r_msg r) v) (script_now (skipn (length rs) sc)).
Proof.
  induction rs as [|x rs IH]; intros v0 sc v r; cbn [deliver app length].
  - intros E. injection E as ->. cbn [skipn]. destruct (v_ops _ _); reflexivity.
  - destruct (v_ops (vkeep (r_msg x) v0) (script_now sc)) as [v1|]; [|discriminate]. intros E. rewrite (IH _ _ _ _ E). destruct sc as [|y sc]; [|reflexivity].
    cbn [script_next]. rewrite !skipn_nil. reflexivity.
Qed.

(* ---------- the parser in memory and the parser of the value model ---------- *)
Record NB (v0 : values) (sc0 : list (list op)) (lib : slice) (al : bytes) (q : nmem) (x : nvars) : Prop := mkNB {
  nb_typ : q_typ q = n_typ x; nb_tr : q_trailer q = n_trailer x; nb_best : q_best q = n_best x; nb_err : q_rderr q = n_rderr x; nb_out : q_out q = n_out x;
  nb_clean : clean (q_internal q); nb_hb : hm_best (q_internal q) = n_best x; nb_hc : m_compliantMsg (hm_x (q_internal q)) = false;
  nb_ib : bestEffort (n_internal x) = n_best x; nb_ic : compliant (n_internal x) = false;
  nb_sc : q_sc q = skipn (length (n_out x)) sc0;
  nb_mem : exists v ac ln an, deliver v0 (map as_result (n_out x)) sc0 = Some v /\
    inv (w3 lib (Slice (s_arr (q_cand q)) 0 (length ac) (length ac)) ln (q_w q)) (v3 al ac an v) /\
    s_off (q_cand q) = 0 /\ s_len (q_cand q) <= length ac /\ s_cap (q_cand q) = length ac /\ n_cand x = firstn (s_len (q_cand q)) ac /\
    s_arr (q_last q) = s_arr ln /\ s_off (q_last q) + s_len (q_last q) <= length an /\ n_last x = firstn (s_len (q_last q)) (skipn (s_off (q_last q)) an) }.

Lemma read_buf d h a : hget h (s_arr d) = Some (KArr a) -> s_off d + s_len d <= length a -> slice_read h d = Some (firstn (s_len d) (skipn (s_off d) a)).
Proof. intros G L. unfold slice_read. rewrite G. destruct (Nat.leb_spec (s_off d + s_len d) (length a)); [reflexivity|lia]. Qed.
Lemma bufs3 d1 d2 d3 a1 a2 a3 s v : inv (w3 d1 d2 d3 s) (v3 a1 a2 a3 v) ->
  hget (w_heap s) (s_arr d1) = Some (KArr a1) /\ hget (w_heap s) (s_arr d2) = Some (KArr a2) /\ hget (w_heap s) (s_arr d3) = Some (KArr a3) /\
  (s_off d1 = 0 /\ s_len d1 = length a1).
Proof.
  intros [_ _ _ _ _ [w [_ [_ [HB _]]]]]. inversion HB as [|? ? ? ? [R1 [R2 R3]] HB1]; subst. inversion HB1 as [|? ? ? ? [Q1 [Q2 Q3]] HB2]; subst. inversion HB2 as [|? ? ? ? [S1 [S2 S3]] HB3]; subst. auto.
Qed.
Lemma NB_cand v0 sc0 lib al q x : NB v0 sc0 lib al q x -> slice_read (q_heap q) (q_cand q) = Some (n_cand x) /\ length (n_cand x) = s_len (q_cand q).
Proof.
  intros H. destruct (nb_mem _ _ _ _ _ _ H) as [v [ac [ln [an [D [I [C1 [C2 [C3 [C4 _]]]]]]]]]]. destruct (bufs3 _ _ _ _ _ _ _ _ I) as [_ [B _]]. cbn [s_arr] in B.
  unfold q_heap. rewrite (read_buf _ _ _ B) by lia. rewrite C1, C4. split; [reflexivity|]. rewrite firstn_length. lia.
Qed.
Lemma NB_last v0 sc0 lib al q x : NB v0 sc0 lib al q x -> slice_read (q_heap q) (q_last q) = Some (n_last x) /\ length (n_last x) = s_len (q_last q).
Proof.
  intros H. destruct (nb_mem _ _ _ _ _ _ H) as [v [ac [ln [an [D [I [C1 [C2 [C3 [C4 [L1 [L2 L3]]]]]]]]]]]]. destruct (bufs3 _ _ _ _ _ _ _ _ I) as [_ [_ [B _]]].
  rewrite <- L1 in B. unfold q_heap. rewrite (read_buf _ _ _ B) by lia. rewrite L3. split; [reflexivity|]. rewrite firstn_length, skipn_length. lia.
Qed.
Lemma NB_lib v0 sc0 lib al q x d : NB v0 sc0 lib al q x -> s_arr d = s_arr lib -> s_off d + s_len d <= length al -> slice_read (q_heap q) d = Some (firstn (s_len d) (skipn (s_off d) al)).
Proof.
  intros H E L. destruct (nb_mem _ _ _ _ _ _ H) as [v [ac [ln [an [D [I _]]]]]]. destruct (bufs3 _ _ _ _ _ _ _ _ I) as [B _]. rewrite <- E in B. apply read_buf; assumption.
Qed.

Lemma parse_emit_NB v0 sc0 lib al q x d text err : NB v0 sc0 lib al q x -> slice_read (q_heap q) d = Some text ->
  exists q' x', m_parse_emit d err q = Some q' /\ parse_emit text err x = Some x' /\ NB v0 sc0 lib al q' x' /\ q_win q' = q_win q.
Proof.
  intros H Rd. pose proof H as [K1 K2 K3 K4 K5 K6 K7 K8 K9 K10 K11 [v [ac [ln [an [D [I R]]]]]]].
  destruct (inv_parse _ _ (q_internal q) d text I K6 Rd) as [hm' [h' [ra [re [vr [E [P1 [P2 [P3 [P4 P5]]]]]]]]]]. change (w_heap (w3 _ _ _ (q_w q))) with (q_heap q) in E.
  rewrite K7, K8 in P4.
  assert (Pv : snd (parse (n_internal x) text) = Ret vr re).
  { rewrite <- P4. rewrite (proj1 (parse_spec (n_internal x) text)), (proj1 (parse_spec (new_machine (n_best x) false) text)), K9, K10. reflexivity. }
  pose proof (parse_spec (n_internal x) text) as [_ [Hb Hc]].
  unfold m_parse_emit, parse_emit. rewrite E. destruct (parse (n_internal x) text) as [m2 r2]. cbn [fst snd] in *. subst r2.
  set (e := match re with Some e => Some (NMachine e) | None => _ end).
  assert (Hk : nlook ra e h' = Some (NResult vr e) /\ inv (w3 lib (Slice (s_arr (q_cand q)) 0 (length ac) (length ac)) ln (keep ra (with_heap h' (q_w q)))) (v3 al ac an (vkeep vr v))).
  { destruct ra as [a|], vr as [m|].
    - destruct P5 as [P5 P6]. cbn [nlook]. rewrite P5. split; [reflexivity|exact P6].
    - destruct P5.
    - destruct P5.
    - split; [reflexivity|exact P5]. }
  destruct Hk as [-> I1]. destruct (script3 _ _ _ _ _ _ (script_now (q_sc q)) _ _ I1) as [s' [v' [-> [F2 I2]]]].
  eexists _, _. split; [reflexivity|]. split; [reflexivity|]. split; [|reflexivity].
  constructor; cbn; auto; try congruence.
  - rewrite K11, script_next_skipn, app_length. cbn [length]. rewrite Nat.add_1_r. reflexivity.
  - exists v', ac, ln, an. split; [|split; [exact I2|exact R]]. rewrite map_app. cbn [map]. rewrite (deliver_snoc _ _ _ _ _ D), map_length, <- K11. exact F2.
Qed.
Lemma process_NB v0 sc0 lib al q x : NB v0 sc0 lib al q x -> orel (fun q' x' => NB v0 sc0 lib al q' x' /\ q_win q' = q_win q) (m_process q) (process x).
Proof.
  intros H. unfold m_process, process, strip1. destruct (NB_cand _ _ _ _ _ _ H) as [Rd L]. rewrite Rd. destruct (rev (n_cand x)) as [|b r] eqn:Er; [exact Logic.I|].
  rewrite (nb_tr _ _ _ _ _ _ H). assert (Ec : n_cand x = rev r ++ [b]) by (rewrite <- (rev_involutive (n_cand x)), Er; reflexivity).
  destruct (beqb b (n_trailer x)).
  - set (d' := Slice _ _ _ _).
    assert (H1 : NB v0 sc0 lib al (set_q_cand d' q) (set_n_cand (rev r) x)).
    { pose proof H as [K1 K2 K3 K4 K5 K6 K7 K8 K9 K10 K11 [v [ac [ln [an [D [I [C1 [C2 [C3 [C4 R]]]]]]]]]]]. constructor; cbn; auto.
      exists v, ac, ln, an. split; [exact D|]. split; [exact I|]. split; [exact C1|]. split; [cbn; lia|]. split; [exact C3|]. split; [|exact R].
      assert (Lr : length (rev r) = s_len (q_cand q) - 1) by (rewrite Ec, app_length in L; cbn in L; lia).
      rewrite <- Lr. rewrite Ec in C4. assert (E2 : firstn (length (rev r)) (firstn (s_len (q_cand q)) ac) = rev r).
      { rewrite <- C4, firstn_app, firstn_all, Nat.sub_diag, firstn_O, app_nil_r. reflexivity. }
      rewrite firstn_firstn in E2. replace (Nat.min (length (rev r)) (s_len (q_cand q))) with (length (rev r)) in E2 by lia. symmetry. exact E2. }
    destruct (NB_cand _ _ _ _ _ _ H1) as [Rd1 _]. cbn [set_q_cand q_cand q_heap q_w set_n_cand n_cand] in Rd1.
    destruct (parse_emit_NB _ _ _ _ _ _ d' (rev r) None H1 Rd1) as [q' [x' [-> [-> H2]]]]. exact H2.
  - assert (H1 : NB v0 sc0 lib al (set_q_cand (q_cand q) q) (set_n_cand (n_cand x) x)) by (destruct q, x; exact H).
    destruct (parse_emit_NB _ _ _ _ _ _ (q_cand q) (n_cand x) None H1 Rd) as [q' [x' [-> [-> H2]]]]. exact H2.
Qed.
Lemma reset_NB v0 sc0 lib al q x : NB v0 sc0 lib al q x -> NB v0 sc0 lib al (m_reset q) (set_n_cand [] x).
Proof.
  intros [K1 K2 K3 K4 K5 K6 K7 K8 K9 K10 K11 [v [ac [ln [an [D [I [C1 [C2 [C3 [C4 R]]]]]]]]]]]. unfold m_reset, alloc. constructor; cbn; auto.
  exists v, [], ln, an. split; [exact D|]. split; [|cbn; auto]. apply swap12. apply swap12 in I. apply head_drop in I. apply (head_new _ _ []) in I. exact I.
Qed.
Lemma firstn_more {A} (l m : list A) n : n = length l -> firstn n (l ++ m) = l.
Proof. intros ->. rewrite firstn_app, firstn_all, Nat.sub_diag, firstn_O, app_nil_r. reflexivity. Qed.
Lemma append_NB v0 sc0 lib al q x data : NB v0 sc0 lib al q x -> slice_read (q_heap q) (q_win q) = Some data ->
  orel (fun q' x' => NB v0 sc0 lib al q' x' /\ q_win q' = q_win q) (m_append q) (Some (set_n_cand (n_cand x ++ data) x)).
Proof.
  intros H Rw. unfold m_append. rewrite Rw. destruct (NB_cand _ _ _ _ _ _ H) as [-> Lc].
  pose proof H as [K1 K2 K3 K4 K5 K6 K7 K8 K9 K10 K11 [v [ac [ln [an [D [I [C1 [C2 [C3 [C4 R]]]]]]]]]]].
  destruct (bufs3 _ _ _ _ _ _ _ _ I) as [_ [B _]]. cbn [s_arr] in B. unfold q_heap. rewrite B, C1, C3. cbn [Nat.add].
  destruct (Nat.leb_spec (s_len (q_cand q) + length data) (length ac)) as [L|L].
  - split; [|reflexivity]. set (a' := blit ac (s_len (q_cand q)) data). assert (La : length a' = length ac) by (apply blit_len; lia).
    constructor; cbn; auto. exists v, a', ln, an. split; [exact D|]. split.
    { apply swap12. apply swap12 in I. apply (head_put _ _ a' _ _) in I; [|exact La]. rewrite La. exact I. }
    split; [reflexivity|]. rewrite La. split; [exact L|]. split; [reflexivity|]. split; [|exact R].
    unfold a', blit. rewrite app_assoc. rewrite firstn_more; [f_equal; exact C4|]. rewrite app_length, firstn_length. lia.
  - unfold alloc. split; [|reflexivity]. set (more := match q_caps q with [] => 0 | c :: _ => c end). set (a' := n_cand x ++ data ++ repeat x00 more).
    assert (La : length a' = length (n_cand x ++ data) + more) by (unfold a'; rewrite !app_length, repeat_length; lia).
    constructor; cbn; auto. exists v, a', ln, an. split; [exact D|]. split.
    { apply swap12. apply swap12 in I. apply head_drop in I. apply (head_new _ _ a') in I. exact I. }
    split; [reflexivity|]. rewrite La. split; [lia|]. split; [reflexivity|]. split; [|exact R].
    unfold a'. rewrite app_assoc. symmetry. apply firstn_more. reflexivity.
Qed.

(* ---------- Exec ---------- *)
Lemma codeN_link : codeN = link progNT. Proof. vm_compute. reflexivity. Qed.
Lemma exec_NB v0 sc0 lib al q x cs data : NB v0 sc0 lib al q x -> s_arr (q_win q) = s_arr lib -> s_off (q_win q) + s_len (q_win q) <= length al ->
  firstn (s_len (q_win q)) (skipn (s_off (q_win q)) al) = data ->
  orel (fun a b => fst a = fst b /\ NB v0 sc0 lib al (snd a) (snd b) /\ q_win (snd a) = q_win q) (m_exec cs q) (nexec cs data x).
Proof.
  intros H W1 W2 W3. unfold m_exec, nexec. rewrite (NB_lib _ _ _ _ _ _ _ H W1 W2), W3.
  pose (R := fun (_ : bool) (q' : nmem) (x' : nvars) => NB v0 sc0 lib al q' x' /\ q_win q' = q_win q).
  assert (Hr : HExec.outrel R (exec m_act m_cnd (link progNT) data (exec_fuel data) LEntry (G 0%Z cs 0%N q)) (exec sem_act sem_cnd (link progNT) data (exec_fuel data) LEntry (G 0%Z cs 0%N x))).
  { apply (exec_rel m_act m_cnd sem_act sem_cnd progNT data (fun _ _ => true) (fun _ _ => false) R (fun _ _ r => r)).
    - intros n a p q' x' _ [Hq Hw]. unfold m_act. assert (Rd : slice_read (q_heap q') (q_win q') = Some data) by (rewrite (NB_lib _ _ _ _ _ _ (q_win q') Hq); rewrite ?Hw; congruence).
      rewrite Rd. rewrite bseqb_refl. destruct a; cbn [sem_act].
      + pose proof (process_NB _ _ _ _ _ _ Hq) as P. unfold R. rewrite <- Hw. exact P.
      + split; [apply reset_NB; exact Hq|exact Hw].
      + pose proof (append_NB _ _ _ _ _ _ data Hq Rd) as P. unfold R. rewrite <- Hw. exact P.
    - intros n c q' x' [Hq Hw]. destruct c; cbn [m_cnd sem_cnd]; rewrite ?(nb_typ _ _ _ _ _ _ Hq); try reflexivity.
      destruct (NB_cand _ _ _ _ _ _ Hq) as [_ ->]. destruct (Nat.ltb_spec 0 (s_len (q_cand q'))), (Z.ltb_spec 0 (Z.of_nat (s_len (q_cand q')))); lia.
    - reflexivity.
    - split; [reflexivity|]. split; [reflexivity|]. split; [reflexivity|]. split; [exact H|reflexivity]. }
  rewrite codeN_link. destruct (exec m_act _ _ _ _ _ _) as [c1 y1| |], (exec sem_act _ _ _ _ _ _) as [c2 y2| |]; cbn in Hr; try tauto; exact Hr.
Qed.

(* ---------- the driver ---------- *)
Definition win_ok (lib : slice) (al : bytes) (w : bytes) (q : nmem) : Prop :=
  s_arr (q_win q) = s_arr lib /\ s_off (q_win q) + s_len (q_win q) <= length al /\ firstn (s_len (q_win q)) (skipn (s_off (q_win q)) al) = w.
Lemma present_NB v0 sc0 lib al q x pl w : NB v0 sc0 lib al q x ->
  exists lib' al' q', m_present pl w lib q = (lib', q') /\ NB v0 sc0 lib' al' q' x /\ win_ok lib' al' w q'.
Proof.
  intros [K1 K2 K3 K4 K5 K6 K7 K8 K9 K10 K11 [v [ac [ln [an [D [I R]]]]]]]. unfold m_present. set (a := pl_pre pl ++ w ++ pl_post pl).
  assert (La : length (pl_pre pl) + length w <= length a) by (unfold a; rewrite !app_length; lia).
  assert (Ra : firstn (length w) (skipn (length (pl_pre pl)) a) = w).
  { unfold a. rewrite skipn_app, skipn_all, Nat.sub_diag. cbn [skipn app]. apply firstn_more. reflexivity. }
  destruct (bufs3 _ _ _ _ _ _ _ _ I) as [_ [_ [_ [_ Ll]]]].
  destruct (pl_new pl || negb (length a =? s_len lib)) eqn:E.
  - unfold alloc. eexists _, a, _. split; [reflexivity|]. split; [|split; [reflexivity|split; [exact La|exact Ra]]].
    constructor; cbn; auto. exists v, ac, ln, an. split; [exact D|]. split; [|exact R]. apply head_drop in I. apply (head_new _ _ a) in I. exact I.
  - apply orb_false_iff in E as [_ E]. apply negb_false_iff, Nat.eqb_eq in E. eexists lib, a, _. split; [reflexivity|]. split; [|split; [reflexivity|split; [exact La|exact Ra]]].
    constructor; cbn; auto. exists v, ac, ln, an. split; [exact D|]. split; [|exact R]. apply (head_put _ _ a _ _) in I; [|congruence]. exact I.
Qed.
Lemma on_err_NB v0 sc0 lib al q x w e : NB v0 sc0 lib al q x -> win_ok lib al w q -> exists lib' al', NB v0 sc0 lib' al' (m_on_err e q) (on_err w e x).
Proof.
  intros [K1 K2 K3 K4 K5 K6 K7 K8 K9 K10 K11 [v [ac [ln [an [D [I [C1 [C2 [C3 [C4 R]]]]]]]]]]] [W1 [W2 W3]]. exists ln, an. constructor; cbn; auto.
  exists v, ac, lib, al. split; [exact D|]. split; [apply swap13; exact I|]. repeat (split; [assumption|]). symmetry. exact W3.
Qed.
Lemma completion_NB v0 sc0 lib al q x : NB v0 sc0 lib al q x -> orel (fun q' x' => NB v0 sc0 lib al q' x') (m_on_completion q) (on_completion x).
Proof.
  intros H. unfold m_on_completion, on_completion.
  assert (P : orel (fun q' x' => NB v0 sc0 lib al q' x') (if 0 <? s_len (q_cand q) then m_process q else Some q) (if (0 <? Z.of_nat (length (n_cand x)))%Z then process x else Some x)).
  { destruct (NB_cand _ _ _ _ _ _ H) as [_ ->]. destruct (Nat.ltb_spec 0 (s_len (q_cand q))), (Z.ltb_spec 0 (Z.of_nat (s_len (q_cand q)))); try lia; [|exact H].
    pose proof (process_NB _ _ _ _ _ _ H) as P. destruct (m_process q), (process x); cbn in *; tauto. }
  destruct (if 0 <? s_len (q_cand q) then _ else _) as [q1|], (if (0 <? _)%Z then _ else _) as [x1|]; cbn in P; try tauto.
  rewrite (nb_err _ _ _ _ _ _ P). destruct (n_rderr x1) as [e|]; [|exact P]. destruct (NB_last _ _ _ _ _ _ P) as [Rd ->].
  destruct (Nat.ltb_spec 0 (s_len (q_last q1))), (Z.ltb_spec 0 (Z.of_nat (s_len (q_last q1)))); try lia; [|exact P].
  destruct (parse_emit_NB _ _ _ _ _ _ (q_last q1) (n_last x1) (Some e) P Rd) as [q' [x' [-> [-> [H2 _]]]]]. exact H2.
Qed.
Definition wrel v0 sc0 (a : N * bool * list place * slice * nmem) (b : N * bool * nvars) : Prop :=
  match a, b with (c1, s1, _, lib, q), (c2, s2, x) => c1 = c2 /\ s1 = s2 /\ exists lib' al', (s1 = false -> lib' = lib) /\ NB v0 sc0 lib' al' q x end.
Lemma windows_NB v0 sc0 d ws : forall cs pls lib al q x, NB v0 sc0 lib al q x -> orel (wrel v0 sc0) (m_exec_windows d cs ws pls lib q) (exec_windows d cs ws x).
Proof.
  induction ws as [|w ws IH]; intros cs pls lib al q x H; cbn [m_exec_windows exec_windows].
  - cbn. split; [reflexivity|]. split; [reflexivity|]. exists lib, al. auto.
  - destruct (present_NB _ _ _ _ _ _ (place_now pls) w H) as [lib' [al' [q' [-> [H1 W]]]]]. pose proof W as [W1 [W2 W3]].
    pose proof (exec_NB _ _ _ _ _ _ cs w H1 W1 W2 W3) as E. destruct (m_exec cs q') as [[c1 q2]|], (nexec cs w x) as [[c2 x2]|]; cbn in E; try tauto; try exact E.
    destruct E as [<- [H2 Ew]]. destruct (c1 =? 0)%N; [|eapply IH; exact H2]. destruct (d_fsm_error d); [eapply IH; exact H2| |].
    + cbn. split; [reflexivity|]. split; [reflexivity|]. exists lib', al'. auto.
    + cbn. split; [reflexivity|]. split; [reflexivity|]. destruct (on_err_NB _ _ _ _ _ _ w RdFsm H2) as [l2 [a2 H3]]; [unfold win_ok; rewrite Ew; exact W|]. exists l2, a2. split; [discriminate|exact H3].
Qed.
(* a parser between two streams *)
Record NS (v : values) (q : nmem) (x : nvars) : Prop := mkNS {
  ns_typ : q_typ q = n_typ x; ns_tr : q_trailer q = n_trailer x; ns_best : q_best q = n_best x; ns_err : q_rderr q = n_rderr x;
  ns_clean : clean (q_internal q); ns_hb : hm_best (q_internal q) = n_best x; ns_hc : m_compliantMsg (hm_x (q_internal q)) = false;
  ns_ib : bestEffort (n_internal x) = n_best x; ns_ic : compliant (n_internal x) = false;
  ns_mem : exists ac ln an,
    inv (consW (Slice (s_arr (q_cand q)) 0 (length ac) (length ac)) (consW ln (q_w q))) (consV ac (consV an v)) /\
    s_off (q_cand q) = 0 /\ s_len (q_cand q) <= length ac /\ s_cap (q_cand q) = length ac /\ n_cand x = firstn (s_len (q_cand q)) ac /\
    s_arr (q_last q) = s_arr ln /\ s_off (q_last q) + s_len (q_last q) <= length an /\ n_last x = firstn (s_len (q_last q)) (skipn (s_off (q_last q)) an) }.
Lemma NB_NS v0 sc0 lib al q x : NB v0 sc0 lib al q x -> exists v, deliver v0 (map as_result (n_out x)) sc0 = Some v /\ NS v q x.
Proof.
  intros [K1 K2 K3 K4 K5 K6 K7 K8 K9 K10 K11 [v [ac [ln [an [D [I R]]]]]]]. exists v. split; [exact D|]. constructor; auto.
  exists ac, ln, an. split; [|exact R]. apply head_drop in I. exact I.
Qed.
Lemma stream_NS d v q x i : NS v q x -> orel (fun q' r => q_out q' = fst r /\ exists v', deliver v (map as_result (fst r)) (i_sc i) = Some v' /\ NS v' q' (snd r))
  (m_nparse d q i) (nparse_stream d x (i_data i) (i_end i)).
Proof.
  intros [K1 K2 K3 K4 K6 K7 K8 K9 K10 [ac [ln [an [I R]]]]]. unfold m_nparse, nparse_stream, m_drive, drive. cbn [q_trailer set_n_out n_trailer]. rewrite K2.
  destruct (windows (n_trailer x) (i_data i)) as [ws rest]. unfold alloc. set (q0 := set_q_heap _ _).
  assert (H0 : NB v (i_sc i) (Slice (length (w_heap (q_w q))) 0 0 0) [] q0 (set_n_out [] x)).
  { constructor; cbn; auto. exists v, ac, ln, an. split; [reflexivity|]. split; [|exact R]. apply (head_new _ _ []) in I. exact I. }
  assert (Fin : forall lib al q1 x1, NB v (i_sc i) lib al q1 x1 -> orel (fun q' r => q_out q' = fst r /\ exists v', deliver v (map as_result (fst r)) (i_sc i) = Some v' /\ NS v' q' (snd r))
     (m_on_completion q1) (match on_completion x1 with Some y => Some (n_out y, y) | None => None end)).
  { intros lib al q1 x1 H. pose proof (completion_NB _ _ _ _ _ _ H) as C. destruct (m_on_completion q1) as [q2|], (on_completion x1) as [x2|]; cbn in C |- *; try tauto.
    split; [apply (nb_out _ _ _ _ _ _ C)|]. apply (NB_NS _ _ _ _ _ _ C). }
  pose proof (windows_NB v (i_sc i) d ws 1 (i_places i) _ _ _ _ H0) as W. change (Slice (length (q_heap _)) 0 0 0) with (Slice (length (w_heap (q_w q))) 0 0 0).
  destruct (m_exec_windows d 1 ws _ _ q0) as [[[[[c1 s1] pls] lib] q1]|], (exec_windows d 1 ws _) as [[[c2 s2] x1]|]; cbn in W; try tauto.
  destruct W as [<- [<- [lib1 [al1 [Hl H1]]]]]. destruct s1; [eapply Fin; exact H1|]. rewrite (Hl eq_refl) in H1.
  destruct (present_NB _ _ _ _ _ _ (place_now pls) rest H1) as [lib2 [al2 [q2 [-> [H2 W2]]]]].
  assert (X : orel (fun q' r => NB v (i_sc i) lib2 al2 q' (snd r) /\ win_ok lib2 al2 rest q') (m_exec_rest d c1 rest q2) (exec_rest d c1 rest x1)).
  { unfold m_exec_rest, exec_rest. destruct rest as [|b rest]; [cbn; auto|]. destruct (d_exec_tail d); [|cbn; auto]. pose proof W2 as [A1 [A2 A3]].
    pose proof (exec_NB _ _ _ _ _ _ c1 (b :: rest) H2 A1 A2 A3) as E. destruct (m_exec c1 q2) as [[c3 q3]|], (nexec c1 (b :: rest) x1) as [[c4 x3]|]; cbn in E |- *; try tauto.
    destruct E as [_ [E1 E2]]. split; [exact E1|]. unfold win_ok. rewrite E2. exact W2. }
  destruct (m_exec_rest d c1 rest q2) as [q3|], (exec_rest d c1 rest x1) as [[c3 x3]|]; cbn in X; try tauto. destruct X as [H3 W3].
  assert (Y : exists l a, NB v (i_sc i) l a (m_end_of_stream d rest (i_end i) q3) (end_of_stream d rest (i_end i) x3)).
  { unfold m_end_of_stream, end_of_stream. destruct rest as [|b rest]; [|eapply on_err_NB; eauto]. destruct (i_end i); [|eapply on_err_NB; eauto].
    destruct (d_clean_end_is_error d); [eapply on_err_NB; eauto|]. exists lib2, al2. exact H3. }
  destruct Y as [l [a Y]]. eapply Fin. exact Y.
Qed.
Lemma streams_NS d l : forall v q x rss, NS v q x -> nstreams d x (map (fun i => (i_data i, i_end i)) l) = Some rss ->
  exists s v', m_nstreams d q l = Some (rss, s) /\ ndeliver_all v rss (map i_sc l) = Some v' /\ inv s v'.
Proof.
  induction l as [|i l IH]; intros v q x rss H E; cbn [map nstreams m_nstreams] in *.
  - injection E as <-. exists (q_w q), v. split; [reflexivity|]. split; [reflexivity|]. destruct (ns_mem _ _ _ H) as [ac [ln [an [I _]]]]. apply head_drop in I. apply head_drop in I. exact I.
  - pose proof (stream_NS d v q x i H) as S. destruct (m_nparse d q i) as [q1|], (nparse_stream d x (i_data i) (i_end i)) as [[rs y]|]; cbn in S; try tauto; try discriminate E.
    destruct S as [S1 [v1 [S2 S3]]]. destruct (nstreams d y _) as [rss1|] eqn:E1; [|discriminate E]. injection E as <-.
    destruct (IH v1 q1 y rss1 S3 E1) as [s [v' [F1 [F2 F3]]]]. rewrite F1, S1. exists s, v'. split; [reflexivity|]. split; [|exact F3].
    unfold ndeliver_all. cbn [map deliver_all]. rewrite S2. exact F2.
Qed.
Lemma nstreams_total d opts l : forall before, exists rss, nstreams d (nafter d (nnew_parser opts) before) l = Some rss.
Proof.
  induction l as [|[data e] l IH]; intros before; cbn [nstreams]; [eauto|]. destruct (nt_total d opts before data e) as [rs E]. unfold nemitted, nresults in E.
  destruct (nparse_stream d (nafter d (nnew_parser opts) before) data e) as [[rs' y]|] eqn:E1; [|discriminate E].
  assert (Ea : y = nafter d (nnew_parser opts) (before ++ [(data, e)])).
  { assert (G : forall x, (forall b r, exists rs', nresults (nparse_stream d (nafter d x b) (fst r) (snd r)) = Some rs') -> nparse_stream d (nafter d x before) data e = Some (rs', y) -> y = nafter d x (before ++ [(data, e)])).
    { clear. induction before as [|[b1 b2] before IH]; intros x T E; cbn [app nafter] in *; [rewrite E; reflexivity|].
      destruct (T [] (b1, b2)) as [r0 Er]. cbn [nafter fst snd] in Er. destruct (nparse_stream d x b1 b2) as [[r1 y1]|] eqn:E1; [|discriminate Er].
      apply IH; [|exact E]. intros b r. specialize (T ((b1, b2) :: b) r). cbn [nafter] in T. rewrite E1 in T. exact T. }
    apply G; [|exact E1]. intros b [r1 r2]. apply nt_total. }
  rewrite Ea. destruct (IH (before ++ [(data, e)])) as [rss ->]. eauto.
Qed.
Lemma new_NS s v opts : inv s v -> NS v (m_nnew_parser s opts) (nnew_parser opts).
Proof.
  intros I. unfold m_nnew_parser, alloc.
  assert (A : forall l x0, n_cand x0 = [] /\ n_last x0 = [] /\ n_rderr x0 = None -> n_cand (fold_left napply_opt l x0) = [] /\ n_last (fold_left napply_opt l x0) = [] /\ n_rderr (fold_left napply_opt l x0) = None).
  { clear. induction l as [|o l IH]; intros x0 H; cbn [fold_left]; [exact H|]. apply IH. destruct o; cbn; auto; destruct (tt_value t); auto. }
  destruct (A opts (NVars 0 x00 [] false (new_machine false false) None [] []) (conj eq_refl (conj eq_refl eq_refl))) as [A1 [A2 A3]].
  constructor; try reflexivity.
  - unfold nnew_parser. cbn [n_rderr q_rderr]. symmetry. exact A3.
  - exists [], (Slice (length (w_heap s)) 0 0 0), []. split; [|unfold nnew_parser; cbn [q_cand q_last s_off s_len s_arr s_cap n_cand n_last length]; rewrite A1, A2; auto 10].
    apply (head_new _ _ []) in I. apply (head_new _ _ []) in I. exact I.
Qed.

(* C73: a program that has done anything before (l0) gives streams to one non-transparent framing parser; the library puts the windows
   where it likes and writes over them; append allocates what it likes; the listener does anything it likes after each result
   (SpecWorld.op).  Nothing panics; each result is, when it is delivered, the one the value model gives; afterwards every message is what
   its own delivery and the listener's own edits made it. *)
Theorem nt_results_are_values g l0 opts d streams : exists s0 v0 seen s v,
  w_ops (world0 g) l0 = Some s0 /\ v_ops (values0 g) l0 = Some v0 /\
  m_nstreams d (m_nnew_parser s0 opts) streams = Some (seen, s) /\
  nstreams d (nnew_parser opts) (map (fun i => (i_data i, i_end i)) streams) = Some seen /\
  ndeliver_all v0 seen (map i_sc streams) = Some v /\
  map (read5 (w_heap s)) (w_msgs s) = map Some (v_msgs v) /\ map (slice_read (w_heap s)) (w_buf s) = map Some (v_buf v) /\ w_trace s = v_trace v.
Proof.
  assert (G : forall l s v, inv s v -> exists s' v', w_ops s l = Some s' /\ v_ops v l = Some v' /\ inv s' v').
  { clear. induction l as [|o l IH]; intros s v I; cbn [w_ops v_ops]; [exists s, v; auto|].
    destruct (op_ok s v o I) as [s' [v' [-> [-> I']]]]. apply IH. exact I'. }
  destruct (G l0 _ _ (inv0 g)) as [s0 [v0 [H1 [H2 I0]]]].
  destruct (nstreams_total d opts (map (fun i => (i_data i, i_end i)) streams) []) as [seen E]. cbn [nafter] in E.
  destruct (streams_NS d streams v0 _ _ seen (new_NS s0 v0 opts I0) E) as [s [v [F1 [F2 F3]]]].
  exists s0, v0, seen, s, v. split; [exact H1|]. split; [exact H2|]. split; [exact F1|]. split; [exact E|]. split; [exact F2|]. apply inv_read. exact F3.
Qed.
(* a listener that only keeps the messages: at the end it has those of all the streams *)
Theorem nt_messages_stay opts d streams : Forall (fun i => i_sc i = []) streams -> exists seen s,
  m_nstreams d (m_nnew_parser (world0 (Globals [] [])) opts) streams = Some (seen, s) /\
  nstreams d (nnew_parser opts) (map (fun i => (i_data i, i_end i)) streams) = Some seen /\
  map (read5 (w_heap s)) (w_msgs s) = map Some (concat (map nmessages_of seen)).
Proof.
  intros HF. destruct (nt_results_are_values (Globals [] []) [] opts d streams) as [s0 [v0 [seen [s [v [H1 [H2 [H3 [H4 [H5 [H6 _]]]]]]]]]]].
  cbn in H1, H2. injection H1 as <-. injection H2 as <-. exists seen, s. split; [exact H3|]. split; [exact H4|]. rewrite H6. f_equal. clear H3 H6.
  assert (L : length seen = length streams).
  { clear -H4. revert seen H4. generalize (nnew_parser opts) as x. induction streams as [|i l IH]; intros x seen E; cbn [map nstreams] in E; [injection E as <-; reflexivity|].
    destruct (nparse_stream d x (i_data i) (i_end i)) as [[rs y]|]; [|discriminate E]. destruct (nstreams d y _) as [rss|] eqn:E1; [|discriminate E]. injection E as <-. cbn. f_equal. eapply IH. exact E1. }
  clear H4. unfold ndeliver_all in H5.
  assert (Q : forall v1, deliver_all v1 (map (map as_result) seen) (map i_sc streams) = Some v -> v_msgs v = v_msgs v1 ++ concat (map nmessages_of seen)); [|apply (Q _ H5)].
  clear H5. revert streams HF L. induction seen as [|rs seen IH]; intros [|i l] HF L v1 E; cbn [deliver_all map concat] in *; try discriminate L.
  - injection E as <-. rewrite app_nil_r. reflexivity.
  - inversion HF as [|? ? Hi HF']; subst. rewrite Hi, deliver_idle in E. apply (IH l HF') in E; [|cbn in L; lia]. rewrite E. cbn [v_msgs]. unfold nmessages_of at 2. rewrite <- app_assoc. reflexivity.
Qed.

(* Two streams; the windows of the first all in one array of 24 bytes, which at the end holds the last of them; the second message is in
   two windows (its text has a line feed), so append has to copy; the listener edits what it was given.  (The
   second stream begins with the last message of the first once more: nt_reuse_refuted, C46.) *)
Definition demo_nt : list mstream :=
  [MStream (lit "<11>1 - host1 - - - -" ++ ["010"%byte] ++ lit "<12>1 - host2 - - - - a" ++ ["010"%byte] ++ lit "b" ++ ["010"%byte] ++ lit "<13>1 - host3 - - - -" ++ ["010"%byte]) AtEOF
     [[]; [OWrite 0 (WHostname (lit "edited")); OSet 1 (SetAppname (lit "app"))]] [3; 0]
     [Place true [] (lit "xx"); Place false [] []; Place false (lit "yyyyyyyyyyyy") (lit "zzzzzzzzzz"); Place false (lit "t") (lit "u")];
   MStream (lit "<14>1 - host4 - - - -") AtEOF [] [] []].
Example demo_nt_mem : match m_nstreams (Driver Continue false false) (m_nnew_parser (world0 (Globals [] [])) []) demo_nt with
  | Some (rss, s) => (map (map (fun r => match nr_msg r with Some m => hostname m | None => None end)) rss,
                      map (fun a => match read5 (w_heap s) a with Some m => (priority m, hostname m, appname m, msg m) | None => (None, None, None, None) end) (w_msgs s),
                      filter (fun c => match c with KArr a => length a =? 24 | _ => false end) (w_heap s))
  | None => ([], [], []) end
  = ([[Some (lit "host1"); Some (lit "host2"); Some (lit "host3")]; [Some (lit "host3"); Some (lit "host4")]],
     [(Some 11%Z, Some (lit "edited"), None, None); (Some 12%Z, Some (lit "host2"), Some (lit "app"), Some (lit "a" ++ ["010"%byte] ++ lit "b"));
      (Some 13%Z, Some (lit "host3"), None, None); (Some 13%Z, Some (lit "host3"), None, None); (Some 14%Z, Some (lit "host4"), None, None)],
     [KArr (lit "t<13>1 - host3 - - - -" ++ ["010"%byte] ++ lit "u"); KArr (lit "<12>1 - host2 - - - - a" ++ ["010"%byte])]).
Proof. vm_compute. reflexivity. Qed.
