(* C72: what the octet counting parser gives to its listener does not depend on the reuse of its buffer. *)
From Verif Require Import Bytes GoMap GoTime Common M5424Def M5424 Spec5424 Ref5424c Thm5424 BuilderBaseDef MBuilder ThmBuilder Bufio HBufio MOctet Heap HBuilder HParse5424 SpecHeap SpecWorld MWorld
  HOwn HRefB HRefB2 HRef5424 HRef5424b HRef5424c ThmHeap SpecOctet ROctet ThmOctet SpecDeliver MOctetMem.
Local Open Scope nat_scope.

(* ---------- one more buffer, in front of those of the listener ---------- *)
Definition consW (d : slice) (s : world) : world := World (w_heap s) (w_mach s) (d :: w_buf s) (w_msgs s) (w_g s) (w_trace s).
Definition consV (a : bytes) (v : values) : values := Values (v_mach v) (a :: v_buf v) (v_msgs v) (v_g v) (v_trace v).
Definition shift (o : op) : op := match o with OWriteBuf k i x => OWriteBuf (S k) i x | OParse k b i j => OParse k (S b) i j | o => o end.
Lemma w_shift d s o : w_op (consW d s) (shift o) = option_map (consW d) (w_op s o).
Proof.
  destruct s as [h ma bu ms g tr]. unfold consW. cbn [w_heap w_mach w_buf w_msgs w_g w_trace].
  destruct o as [best compliant|b|k i x|k b i j| |k c|k z|k u]; cbn [shift w_op nth_error]; try reflexivity.
  - destruct (nth_error bu k); [|reflexivity]. destruct (i <? s_len s); [|reflexivity]. destruct (hget h (s_arr s)) as [[]|]; reflexivity.
  - destruct (nth_error ma k); [|reflexivity]. destruct (nth_error bu b) as [buf|]; [|reflexivity]. destruct (subslice buf i j) as [q|]; [|reflexivity].
    destruct (h_parse h0 h q) as [[m' h'] [[a|] e| |]]; reflexivity.
  - destruct (nth_error ms k); [|reflexivity]. destruct (h_step g h a c) as [[g' h']|]; reflexivity.
  - destruct (nth_error ms k); [|reflexivity]. destruct (h_compute_from_priority z h a) as [h'|]; reflexivity.
  - destruct (nth_error ms k); [|reflexivity]. destruct (h_write u h a) as [h'|]; reflexivity.
Qed.
Lemma v_shift a v o : v_op (consV a v) (shift o) = option_map (consV a) (v_op v o).
Proof.
  destruct v as [ma bu ms g tr]. unfold consV. cbn [v_mach v_buf v_msgs v_g v_trace].
  destruct o as [best compliant|b|k i x|k b i j| |k c|k z|k u]; cbn [shift v_op nth_error]; try reflexivity.
  - destruct (nth_error bu k) as [b|]; [|reflexivity]. destruct (i <? length b); reflexivity.
  - destruct (nth_error ma k) as [[best compl]|]; [|reflexivity]. destruct (nth_error bu b) as [buf|]; [|reflexivity]. destruct (zslice buf i j) as [q|]; [|reflexivity].
    destruct (snd (parse (new_machine best compl) q)) as [[m|] e| |]; reflexivity.
  - destruct (nth_error ms k) as [m|]; [|reflexivity]. destruct (step g m c) as [[g' h']|]; reflexivity.
  - destruct (nth_error ms k); reflexivity.
  - destruct (nth_error ms k); reflexivity.
Qed.
Lemma script_ok d a l : forall s v, inv (consW d s) (consV a v) -> exists s' v', w_ops s l = Some s' /\ v_ops v l = Some v' /\ inv (consW d s') (consV a v').
Proof.
  induction l as [|o l IH]; intros s v I; cbn [w_ops v_ops]; [exists s, v; auto|].
  destruct (op_ok _ _ (shift o) I) as [s1 [v1 [E1 [E2 I1]]]]. rewrite w_shift in E1. rewrite v_shift in E2.
  destruct (w_op s o) as [s2|]; [|discriminate E1]. destruct (v_op v o) as [v2|]; [|discriminate E2]. cbn in E1, E2. injection E1 as <-. injection E2 as <-.
  apply IH. exact I1.
Qed.
Lemma head_buf d a s v : inv (consW d s) (consV a v) -> hget (w_heap s) (s_arr d) = Some (KArr a) /\ s_off d = 0 /\ s_len d = length a.
Proof. intros [_ _ _ _ _ [w [_ [_ [HB _]]]]]. inversion HB as [|? ? ? ? [R1 [R2 R3]]]; subst. auto. Qed.
Lemma head_drop d a s v : inv (consW d s) (consV a v) -> inv s v.
Proof.
  intros [Eg Et Hma Hlen Hnd [w [Ho [Hx [HB HM]]]]]. constructor; auto; [inversion Hnd; assumption|]. exists w. split; [exact Ho|]. split; [exact Hx|].
  split; [inversion HB; assumption|exact HM].
Qed.
Lemma head_new s v a : inv s v -> inv (consW (Slice (length (w_heap s)) 0 (length a) (length a)) (with_heap (w_heap s ++ [KArr a]) s)) (consV a v).
Proof.
  intros [Eg Et Hma Hlen Hnd [w [Ho [Hx [HB HM]]]]]. destruct s as [h ma bu ms g tr]. cbn [w_g v_g w_trace v_trace w_mach v_mach w_buf v_buf w_msgs v_msgs w_heap] in *.
  assert (Hn : w (length h) = None) by (destruct (w (length h)) eqn:E; [|reflexivity]; exfalso; assert (length h < length h) by (apply Ho; congruence); lia).
  assert (S : forall n, step_ok n n n w h w (h ++ [KArr a])) by (intros n; apply step_grow; exact Ho).
  constructor; cbn; auto.
  - constructor; [|exact Hnd]. intros Ha. apply in_map_iff in Ha as [d [E Hd]].
    apply In_nth_error in Hd as [j Hj]. pose proof (Forall2_nth _ _ _ HB j) as F. rewrite Hj in F. destruct (nth_error (v_buf v) j); [|tauto]. destruct F as [_ [F _]]. apply hget_lt in F. lia.
  - exists w. split; [apply (S 0)|]. split; [exact Hx|]. split.
    + constructor; [|eapply Forall2_imp; [|exact HB]; intros d b0; eapply (buf_step 0); eauto]. split; [exact Hn|]. split; [apply hget_new|]. split; reflexivity.
    + intros k b m Ha Hm. eapply (msg_keeps (fun _ => True)); [apply keeps_grow; exact Ho|intros; exact Logic.I..|eapply HM; eauto].
Qed.
(* memory that only grows *)
Lemma inv_grow s v r : inv s v -> inv (with_heap (w_heap s ++ r) s) v.
Proof.
  intros [Eg Et Hma Hlen Hnd [w [Ho [Hx [HB HM]]]]]. constructor; cbn; auto. exists w. split; [apply (step_grow 0 0 0 w _ r Ho)|]. split; [exact Hx|]. split.
  - eapply Forall2_imp; [|exact HB]. intros d b0; eapply (buf_step 0); eauto. apply step_grow. exact Ho.
  - intros k b m Ha Hm. eapply (msg_keeps (fun _ => True)); [apply keeps_grow; exact Ho|intros; exact Logic.I..|eapply HM; eauto].
Qed.
(* the array of the first buffer is overwritten *)
Lemma head_put d a a' s v : inv (consW d s) (consV a v) -> length a' = length a ->
  inv (consW d (with_heap (hput (w_heap s) (s_arr d) (KArr a')) s)) (consV a' v).
Proof.
  intros [Eg Et Hma Hlen Hnd [w [Ho [Hx [HB HM]]]]] L. destruct s as [h ma bu ms g tr]. cbn [consW consV with_heap w_g v_g w_trace v_trace w_mach v_mach w_buf v_buf w_msgs v_msgs w_heap] in *.
  inversion HB as [|? ? ? ? [R1 [R2 [R3 R4]]] HB']; subst. inversion Hnd as [|? ? N1 N2]; subst.
  constructor; cbn [consW consV with_heap w_g v_g w_trace v_trace w_mach v_mach w_buf v_buf w_msgs v_msgs w_heap]; auto.
  exists w. split; [intros b Hb; rewrite hput_len; apply Ho; exact Hb|]. split; [exact Hx|]. split.
  - constructor.
    + split; [exact R1|]. split; [apply hget_put_same; eapply hget_lt; eauto|]. split; [exact R3|congruence].
    + clear -HB' N1. revert N1 HB'. generalize (v_buf v) as vb. induction bu as [|d1 bu IH]; intros vb N F; inversion F as [|? ? ? ? [Q1 [Q2 Q3]] F']; subst; constructor.
      * split; [exact Q1|]. split; [|exact Q3]. rewrite hget_put_other; [exact Q2|]. intros E. apply N. cbn. auto.
      * apply IH; [|exact F']. intros E. apply N. cbn. auto.
  - intros j b m Ha Hm. eapply (msg_keeps (fun _ => True)); [|intros; exact Logic.I..|eapply HM; eauto].
    intros q l Hq _. split; [exact Hq|]. apply hget_put_other. congruence.
Qed.
(* Parse on any slice *)
Lemma inv_parse s v hm d input : inv s v -> clean hm -> slice_read (w_heap s) d = Some input ->
  exists hm' h' ra re vr, h_parse hm (w_heap s) d = (hm', h', HRet ra re) /\ clean hm' /\ hm_best hm' = hm_best hm /\ m_compliantMsg (hm_x hm') = m_compliantMsg (hm_x hm) /\
    snd (parse (new_machine (hm_best hm) (m_compliantMsg (hm_x hm))) input) = Ret vr re /\
    match ra, vr with
    | Some a, Some m => read5 h' a = Some m /\ inv (keep (Some a) (with_heap h' s)) (Values (v_mach v) (v_buf v) (v_msgs v ++ [m]) (v_g v) (v_trace v))
    | None, None => inv (with_heap h' s) v
    | _, _ => False end.
Proof.
  intros I C Rd. pose proof I as [Eg Et Hma Hlen Hnd [w [Ho [Hx [HB HM]]]]].
  destruct (h_parse_ok (length (w_msgs s)) w (w_heap s) d input hm Ho (fun a r E => Nat.lt_irrefl _ (Hx a _ r E)) Rd C) as [hm' [h' [r [w' [E [P1 [P2 [P3 [P4 P5]]]]]]]]].
  destruct (parse_total (new_machine (hm_best hm) (m_compliantMsg (hm_x hm))) input) as [vr [ve Ep]]. rewrite Ep in P5.
  destruct r as [ra re| |]; cbn in P5; try tauto. destruct P5 as [-> P5]. exists hm', h', ra, ve, vr.
  split; [exact E|]. split; [exact P1|]. split; [exact P2|]. split; [exact P3|]. split; [exact Ep|]. destruct ra as [a|], vr as [m|]; try tauto.
  - split; [apply (msg_read _ _ _ _ _ _ _ P5)|]. rewrite <- Et. apply (inv_new s v a m h' w w' (w_mach s) (v_mach v) (w_trace s)); auto.
  - assert (Fr : forall b, b < length (w_heap s) -> hget h' b = hget (w_heap s) b).
    { intros b0 L. apply (st_frame _ _ _ _ _ _ _ P4 b0 L); intros r0 E0; exact (Nat.lt_irrefl _ (Hx _ _ _ E0)). }
    constructor; cbn; auto. exists w. split; [intros a Ha; apply Ho in Ha; pose proof (st_len _ _ _ _ _ _ _ P4); lia|]. split; [exact Hx|]. split.
    + eapply Forall2_imp; [|exact HB]. intros dd bb [R1 [R2 R3]]. split; [exact R1|]. split; [|exact R3]. rewrite Fr; [exact R2|eapply hget_lt; eauto].
    + intros jj a m Ha Hm. eapply (msg_keeps (fun _ => True)); [|intros; exact Logic.I..|eapply HM; eauto].
      intros q l Hq _. split; [exact Hq|]. apply Fr. apply Ho. congruence.
Qed.

(* ---------- the scanner ---------- *)
Definition ab_of (a : bytes) (b : hbufio) : abufio := AB a (hb_r b) (hb_w b) (hb_last b) (hb_err b) (hb_rd b).
Definition J (h : heap) (s : world) (v : values) (b : hbufio) (f : bufio) : Prop :=
  exists a, inv (consW (hb_buf b) (with_heap h s)) (consV a v) /\ arel (ab_of a b) f.
Lemma J_load h s v b f : J h s v b f -> exists a, loadb h b = Some (ab_of a b) /\ inv (consW (hb_buf b) (with_heap h s)) (consV a v) /\ arel (ab_of a b) f.
Proof. intros [a [I R]]. exists a. split; [|auto]. destruct (head_buf _ _ _ _ I) as [E _]. cbn in E. unfold loadb. rewrite E. reflexivity. Qed.
Lemma J_store h s v b a x f : inv (consW (hb_buf b) (with_heap h s)) (consV a v) -> length (a_arr x) = length a -> arel x f ->
  J (fst (storeb h b x)) s v (snd (storeb h b x)) f.
Proof.
  intros I L R. exists (a_arr x). cbn [storeb fst snd hb_buf]. split; [apply (head_put _ _ (a_arr x) _ _ I L)|]. destruct x; exact R.
Qed.
Lemma sread_J h s v b f : J h s v b f -> match m_sread h b, sread f with
  | Some (c, h', b'), Some (c', f') => c = c' /\ J h' s v b' f' | None, None => True | _, _ => False end.
Proof.
  intros H. destruct (J_load _ _ _ _ _ H) as [a [E [I R]]]. unfold m_sread, sread. rewrite E.
  pose proof (read_byte_rel 3 _ _ R) as Q. unfold a_read_byte, read_byte. destruct (a_read_byte_loop 3 (ab_of a b)) as [[c x]|], (read_byte_loop 3 f) as [[c' f']|]; try tauto.
  destruct Q as [<- [Q1 Q2]]. pose proof (J_store h s v b a x f' I Q2 Q1) as Q. destruct (storeb h b x) as [h' b']. destruct c; auto.
Qed.
Lemma unread_J h s v b f : J h s v b f -> exists h' b', h_unread h b = Some (h', b') /\ J h' s v b' (unread_byte f).
Proof.
  intros H. destruct (J_load _ _ _ _ _ H) as [a [E [I R]]]. unfold h_unread. rewrite E. destruct (unread_rel _ _ R) as [R1 R2].
  pose proof (J_store h s v b a _ _ I R2 R1) as Q. destruct (storeb h b _) as [h' b']. eauto.
Qed.
Lemma digits_J n : forall h s v b f buf, J h s v b f -> match m_digits_loop n h b buf, digits_loop n f buf with
  | Some (l, h', b'), Some (l', f') => l = l' /\ J h' s v b' f' | None, None => True | _, _ => False end.
Proof.
  induction n as [|n IH]; intros h s v b f buf H; cbn [m_digits_loop digits_loop]; [exact I|].
  pose proof (sread_J h s v b f H) as Q. destruct (m_sread h b) as [[[c h'] b']|], (sread f) as [[c' f']|]; try tauto. destruct Q as [<- Q].
  destruct (beqb c x00); [auto|]. destruct (negb (is_digit c)); [|apply IH; exact Q].
  destruct (unread_J _ _ _ _ _ Q) as [h2 [b2 [-> Q2]]]. auto.
Qed.
Record SJ (h : heap) (s : world) (v : values) (m : mscanner) (c : scanner) : Prop := mkSJ {
  sj_b : J h s v (ms_r m) (s_r c); sj_len : ms_msglen m = s_msglen c; sj_ready : ms_ready m = s_ready c }.
(* a token of the scanner, while the buffer has not been touched since *)
Definition tok_is (h : heap) (t : mtoken) (k : token) : Prop := tok_now h t = Some k.
Lemma tok_typ h t k : tok_is h t k -> mt_typ t = typ k.
Proof. unfold tok_is, tok_now. destruct (lit_now h (mt_lit t)); [|discriminate]. intros H. injection H as <-. reflexivity. Qed.
Definition scan_out (s : world) (v : values) (x : option (mtoken * heap * mscanner)) (y : option (token * scanner)) : Prop :=
  match x, y with Some (t, h', m'), Some (k, c') => tok_is h' t k /\ SJ h' s v m' c' | None, None => True | _, _ => False end.
Lemma msg_len_J h s v m c : SJ h s v m c -> scan_out s v (m_scan_msg_len h m) (scan_msg_len c).
Proof.
  intros [H1 H2 H3]. unfold scan_out, m_scan_msg_len, scan_msg_len. pose proof (sread_J _ _ _ _ _ H1) as Q.
  destruct (m_sread h (ms_r m)) as [[[x h'] b']|], (sread (s_r c)) as [[x' f']|]; try tauto. destruct Q as [<- Q].
  assert (El : m_left b' = left f').
  { destruct Q as [a [_ R]]. unfold m_left, left. rewrite (ar_un _ _ R), (ar_rd _ _ R), cut_len; [reflexivity|apply (ar_r _ _ R)|apply (ar_w _ _ R)]. }
  rewrite El. pose proof (digits_J (S (left f')) h' s v b' f' [x] Q) as D.
  destruct (m_digits_loop _ h' b' [x]) as [[[l h2] b2]|], (digits_loop _ f' [x]) as [[l' f2]|]; try tauto. destruct D as [<- D].
  split; [reflexivity|]. constructor; auto.
Qed.
Lemma syslog_msg_J h s v m c : SJ h s v m c -> scan_out s v (m_scan_syslog_msg h m) (scan_syslog_msg c).
Proof.
  intros [H1 H2 H3]. unfold scan_out, m_scan_syslog_msg, scan_syslog_msg. rewrite H2. set (n := to_int (s_msglen c)).
  destruct (J_load _ _ _ _ _ H1) as [a [E [I R]]]. destruct (head_buf _ _ _ _ I) as [_ [Off _]]. unfold h_peek. rewrite E.
  pose proof (peek_rel n _ _ R) as Q. destruct (a_peek n (ab_of a (ms_r m))) as [[[o ok] x]|], (peek n (s_r c)) as [[[l ok'] f']|]; try tauto.
  destruct Q as [<- [-> [Q1 [Q2 [Q3 Q4]]]]].
  pose proof (J_store h s v (ms_r m) a x f' I Q2 Q1) as K. cbn [storeb fst snd] in K |- *.
  (* the slice holds the bytes Peek saw as long as the array is the one Peek left *)
  assert (Rd : forall h', hget h' (s_arr (hb_buf (ms_r m))) = Some (KArr (a_arr x)) ->
    lit_now h' (match (match o with Some k => Some (Slice (s_arr (hb_buf (ms_r m))) (s_off (hb_buf (ms_r m)) + a_r x) k (s_cap (hb_buf (ms_r m)) - a_r x)) | None => None end) with
      | Some d => LBuf d | None => LOwn [] end) = Some (peeked o x)).
  { intros h' G. destruct o as [k|]; [|reflexivity]. cbn [lit_now]. unfold slice_read. cbn [s_arr s_off s_len]. rewrite G, Off. cbn [Nat.add].
    pose proof (ar_r _ _ Q1). pose proof (ar_w _ _ Q1). unfold a_buffered in Q3. destruct (Nat.leb_spec (a_r x + k) (length (a_arr x))); [|lia].
    unfold peeked, cut. replace (a_r x + k - a_r x) with k by lia. reflexivity. }
  destruct ok.
  - destruct (Q4 eq_refl) as [N0 ->]. destruct (J_load _ _ _ _ _ K) as [a2 [E2 [I2 R2]]].
    assert (Ea2 : ab_of a2 (HB (hb_buf (ms_r m)) (a_r x) (a_w x) (a_last x) (a_err x) (a_rd x)) = x).
    { unfold loadb in E2. cbn [hb_buf] in E2. rewrite hget_put_same in E2 by (destruct (head_buf _ _ _ _ I) as [G _]; cbn in G; eapply hget_lt; eauto).
      injection E2 as <-. destruct x; reflexivity. }
    unfold h_discard. rewrite E2, Ea2. rewrite Ea2 in R2. pose proof (discard_rel n _ _ R2) as D. destruct (a_discard n x) as [x'|] eqn:Ed, (discard n f') as [f2|]; try tauto.
    destruct D as [D1 D2]. destruct (discard_keeps n x x' N0 Q3 Ed) as [Arr _].
    assert (La : length (a_arr x') = length a2) by (rewrite D2; rewrite <- Ea2; reflexivity).
    pose proof (J_store _ s v _ a2 x' f2 I2 La D1) as K2. cbn [storeb fst snd hb_buf] in K2 |- *.
    split; [|constructor; auto]. unfold tok_is, tok_now. cbn [mt_lit mt_typ]. rewrite (Rd _); [reflexivity|]. rewrite Arr. apply hget_put_same.
    rewrite hput_len. destruct (head_buf _ _ _ _ I) as [G _]; cbn in G; eapply hget_lt; eauto.
  - split; [|constructor; auto]. unfold tok_is, tok_now. cbn [mt_lit mt_typ]. rewrite (Rd _); [reflexivity|]. apply hget_put_same.
    destruct (head_buf _ _ _ _ I) as [G _]; cbn in G; eapply hget_lt; eauto.
Qed.
Lemma scan_J h s v m c : SJ h s v m c -> scan_out s v (m_scan h m) (scan c).
Proof.
  intros [H1 H2 H3]. unfold m_scan, scan. pose proof (sread_J _ _ _ _ _ H1) as Q.
  destruct (m_sread h (ms_r m)) as [[[x h'] b']|], (sread (s_r c)) as [[x' f']|]; try tauto; try exact I. destruct Q as [<- Q].
  destruct (is_nonzero_digit x).
  { destruct (unread_J _ _ _ _ _ Q) as [h2 [b2 [-> Q2]]]. apply msg_len_J. constructor; auto. }
  destruct (beqb x x00); [split; [reflexivity|constructor; auto]|]. destruct (beqb x " "); [split; [reflexivity|constructor; auto]|].
  rewrite H2, H3. destruct (beqb x "<" && (0 <? s_msglen c)%Z && s_ready c).
  { destruct (unread_J _ _ _ _ _ Q) as [h2 [b2 [-> Q2]]]. apply syslog_msg_J. constructor; auto. }
  split; [reflexivity|constructor; auto].
Qed.

(* ---------- the parser ---------- *)
Record PJ (h : heap) (s : world) (v : values) (p : mparser) (q : oparser) : Prop := mkPJ {
  pj_max : mp_max p = p_max q; pj_best : mp_best p = p_best q; pj_step : mp_stepback p = p_stepback q;
  pj_s : SJ h s v (mp_s p) (p_s q);
  pj_last : mp_stepback p = true -> tok_is h (mp_last p) (p_last q);
  pj_clean : clean (mp_internal p); pj_hb : hm_best (mp_internal p) = p_best q; pj_hc : m_compliantMsg (hm_x (mp_internal p)) = false;
  pj_ib : bestEffort (p_internal q) = p_best q; pj_ic : compliant (p_internal q) = false }.
Lemma pscan_J h s v p q : PJ h s v p q -> match mp_scan h p, pscan q with
  | Some (t, h', p'), Some (k, q') => tok_is h' t k /\ PJ h' s v p' q' /\ mp_last p' = t /\ p_last q' = k /\ mp_stepback p' = false
  | None, None => True | _, _ => False end.
Proof.
  intros [K1 K2 K3 K4 K5 K6 K7 K8 K9 K10]. unfold mp_scan, pscan. rewrite <- K3. destruct (mp_stepback p) eqn:Es.
  - split; [apply K5; reflexivity|]. split; [|auto]. constructor; cbn; auto; discriminate.
  - pose proof (scan_J _ _ _ _ _ K4) as Q. unfold scan_out in Q. destruct (m_scan h (mp_s p)) as [[[t h'] m']|], (scan (p_s q)) as [[k c']|]; try tauto.
    destruct Q as [Q1 Q2]. split; [exact Q1|]. split; [|auto]. constructor; cbn; auto; congruence.
Qed.
Lemma PJ_heap h h' s v p q : PJ h s v p q -> PJ h (with_heap h' s) v p q.
Proof. intros [K1 K2 K3 [L1 L2 L3] K5 K6 K7 K8 K9 K10]. constructor; auto. constructor; auto. Qed.
Lemma unscan_J h s v p q : PJ h s v p q -> tok_is h (mp_last p) (p_last q) -> PJ h s v (mp_unscan p) (set_p_stepback true q).
Proof. intros [K1 K2 K3 K4 K5 K6 K7 K8 K9 K10] T. constructor; cbn; auto. Qed.
Lemma SJ_inv h s v h' s' v' m c : SJ h s v m c -> (forall d a, hget h (s_arr d) = Some (KArr a) -> inv (consW d (with_heap h s)) (consV a v) -> inv (consW d (with_heap h' s')) (consV a v')) -> SJ h' s' v' m c.
Proof.
  intros [[a [I R]] H2 H3] F. constructor; auto. exists a. split; [|exact R]. apply F; [|exact I]. destruct (head_buf _ _ _ _ I) as [G _]. exact G.
Qed.
Lemma parse_J h s v p q l data : PJ h s v p q -> mp_stepback p = false -> lit_now h l = Some data ->
  exists a re h' p' m q', mp_parse h p l = Some (a, re, h', p') /\ pparse q data = Some (Result m (option_map EMachine re), q') /\
    mp_stepback p' = false /\ mp_best p' = mp_best p /\ p_best q' = p_best q /\ p_s q' = p_s q /\ mp_s p' = mp_s p /\ (p_best q = false -> re <> None -> m = None) /\
    look a None h' = Some (Result m None) /\ PJ h' (keep a s) (vkeep m v) p' q'.
Proof.
  intros P Es Hl. pose proof P as [K1 K2 K3 K4 K5 K6 K7 K8 K9 K10]. unfold mp_parse.
  set (hd := match l with LOwn l => _ | LBuf d => (h, d) end).
  assert (Hhd : exists h0 d, hd = (h0, d) /\ slice_read h0 d = Some data /\ SJ h0 s v (mp_s p) (p_s q)).
  { unfold hd. destruct l as [l|d]; cbn [lit_now] in Hl.
    - injection Hl as ->. unfold alloc. eexists _, _. split; [reflexivity|]. split.
      + unfold slice_read. cbn [s_arr s_off s_len]. rewrite hget_new. cbn [Nat.add skipn]. rewrite Nat.leb_refl, firstn_all. reflexivity.
      + eapply SJ_inv; [exact K4|]. intros d a _ I. apply (inv_grow _ _ [KArr data]) in I. exact I.
    - eexists _, _. split; [reflexivity|]. split; [exact Hl|exact K4]. }
  destruct Hhd as [h0 [d [-> [Rd K4']]]]. destruct K4' as [[a0 [I0 R0]] L2 L3].
  destruct (inv_parse _ _ (mp_internal p) d data I0 K6 Rd) as [hm' [h' [ra [re [vr [E [P1 [P2 [P3 [P4 P5]]]]]]]]]]. cbn [with_heap consW w_heap] in E. rewrite E.
  rewrite K7, K8 in P4. 
  assert (Pv : snd (parse (p_internal q) data) = Ret vr re).
  { rewrite <- P4. rewrite (proj1 (parse_spec (p_internal q) data)), (proj1 (parse_spec (new_machine (p_best q) false) data)), K9, K10. reflexivity. }
  pose proof (parse_spec (p_internal q) data) as [_ [Hb Hc]]. 
  assert (Hq : exists q', pparse q data = Some (Result vr (option_map EMachine re), q') /\ q' = set_p_internal (fst (parse (p_internal q) data)) q).
  { unfold pparse. destruct (parse (p_internal q) data) as [m2 r2]. cbn [snd] in Pv. subst r2. eexists. split; reflexivity. }
  destruct Hq as [q' [Eq ->]].
  exists ra, re, h', (MParser (mp_max p) (mp_s p) hm' (mp_last p) (mp_stepback p) (mp_best p)), vr. eexists. split; [reflexivity|]. split; [exact Eq|].
  split; [exact Es|]. split; [reflexivity|]. split; [reflexivity|]. split; [reflexivity|]. split; [reflexivity|]. split.
  { intros Hbe Hre. rewrite (proj1 (parse_spec (p_internal q) data)), K9, Hbe in Pv. destruct (spec5424 _ data) as [o|[o|] e]; cbn in Pv; injection Pv as <- <-; congruence. }
  assert (G : forall s' v', inv (consW (hb_buf (ms_r (mp_s p))) (with_heap h' s')) (consV a0 v') ->
     PJ h' s' v' (MParser (mp_max p) (mp_s p) hm' (mp_last p) (mp_stepback p) (mp_best p)) (set_p_internal (fst (parse (p_internal q) data)) q)).
  { intros s' v' I'. constructor; cbn; auto; try congruence. constructor; auto. exists a0. split; [exact I'|exact R0]. }
  destruct ra as [a|], vr as [m|]; try tauto.
  - destruct P5 as [P5 P6]. cbn [look]. rewrite P5. split; [reflexivity|]. apply G. exact P6.
  - split; [reflexivity|]. apply G. exact P5.
Qed.

Lemma PJ_script h s v p q l : PJ h s v p q -> mp_stepback p = false ->
  exists s' v', w_ops (with_heap h s) l = Some s' /\ v_ops v l = Some v' /\ PJ (w_heap s') s' v' p q.
Proof.
  intros [K1 K2 K3 K4 K5 K6 K7 K8 K9 K10] Es. destruct K4 as [[a [I R]] L2 L3]. destruct (script_ok _ _ l _ _ I) as [s' [v' [E1 [E2 I']]]].
  exists s', v'. split; [exact E1|]. split; [exact E2|]. constructor; auto; [|congruence]. constructor; auto. exists a. split; [|exact R]. destruct s'; exact I'.
Qed.
Lemma emit_J h s v p q a m e l : PJ h (keep a s) (vkeep m v) p q -> mp_stepback p = false -> look a None h = Some (Result m None) ->
  exists s' v', m_emit (with_heap h s) a e l = Some (Result m e, s') /\ v_ops (vkeep m v) l = Some v' /\ PJ (w_heap s') s' v' p q.
Proof.
  intros P Es Hl. destruct (PJ_script h _ _ p q l P Es) as [s' [v' [E1 [E2 P']]]]. exists s', v'. split; [|auto]. unfold m_emit.
  assert (El : look a e (w_heap (with_heap h s)) = Some (Result m e)).
  { cbn [with_heap w_heap]. destruct a as [a|]; cbn [look] in *; [destruct (read5 h a); [|discriminate Hl]|]; injection Hl as <-; reflexivity. }
  rewrite El. replace (keep a (with_heap h s)) with (with_heap h (keep a s)) by (destruct a; reflexivity). rewrite E1. reflexivity.
Qed.
Definition run_out (v : values) (sc : list (list op)) (x : option (list result * world * mparser)) (y : option (list result * oparser)) : Prop :=
  match x, y with
  | Some (rs, s', p'), Some (rs', q') => rs = rs' /\ exists v', deliver v rs sc = Some v' /\ PJ (w_heap s') s' v' p' q' /\ mp_stepback p' = false
  | None, None => True | _, _ => False end.
Lemma last_J h s v p q a m e sc : PJ h (keep a s) (vkeep m v) p q -> mp_stepback p = false -> look a None h = Some (Result m None) ->
  run_out v sc (m_last (with_heap h s) a e sc p) (Some ([Result m e], q)).
Proof.
  intros P Es Hl. unfold m_last. destruct (emit_J h s v p q a m e (script_now sc) P Es Hl) as [s' [v' [-> [E2 P']]]]. cbn [run_out]. split; [reflexivity|].
  exists v'. split; [|auto]. cbn [deliver r_msg]. rewrite E2. reflexivity.
Qed.
Lemma last0_J h s v p q e sc : PJ h s v p q -> mp_stepback p = false -> run_out v sc (m_last (with_heap h s) None e sc p) (Some ([Result None e], q)).
Proof. intros P Es. apply (last_J h s v p q None None e sc P Es eq_refl). Qed.
Lemma is_typ_J h t k x : tok_is h t k -> is_typ x (Token (mt_typ t) []) = is_typ x k.
Proof. intros H. rewrite (tok_typ _ _ _ H). reflexivity. Qed.
Lemma body_J rec vrec : (forall s v sc p q, PJ (w_heap s) s v p q -> run_out v sc (rec s sc p) (vrec q)) ->
  forall tok k h s v sc p q, PJ h s v p q -> mp_stepback p = false -> tok_is h tok k ->
  run_out v sc (m_run_body rec tok (with_heap h s) sc p) (run_body vrec k q).
Proof.
  intros IH tok k h s v sc p q P Es T. unfold m_run_body, run_body. cbv zeta. cbn [with_heap w_heap].
  rewrite (is_typ_J _ _ _ MSGLEN T). destruct (negb (is_typ MSGLEN k)).
  { unfold tok_is in T. rewrite T. apply last0_J; assumption. }
  rewrite (pj_max _ _ _ _ _ P), (sj_len _ _ _ _ _ (pj_s _ _ _ _ _ P)). destruct (p_max q <? to_int (s_msglen (p_s q)))%Z; [apply last0_J; assumption|].
  pose proof (pscan_J _ _ _ _ _ P) as Q. destruct (mp_scan h p) as [[[t2 h2] p2]|], (pscan q) as [[k2 q2]|]; try tauto; try exact I.
  destruct Q as [T2 [P2 [_ [_ E2]]]]. rewrite (is_typ_J _ _ _ WS T2). destruct (negb (is_typ WS k2)).
  { unfold tok_is in T2. rewrite T2. apply (last0_J h2 s); assumption. }
  pose proof (pscan_J _ _ _ _ _ P2) as Q. destruct (mp_scan h2 p2) as [[[t3 h3] p3]|], (pscan q2) as [[k3 q3]|]; try tauto; try exact I.
  destruct Q as [T3 [P3 [_ [_ E3]]]]. rewrite (is_typ_J _ _ _ SYSLOGMSG T3).
  assert (L3 : lit_now h3 (mt_lit t3) = Some (tlit k3)).
  { unfold tok_is, tok_now in T3. destruct (lit_now h3 (mt_lit t3)); [|discriminate T3]. injection T3 as <-. reflexivity. }
  destruct (parse_J h3 s v p3 q3 (mt_lit t3) (tlit k3) P3 E3 L3) as [a [re [h4 [p4 [m [q4 [D1 [D2 [D3 [D4 [D5 [D6 [D7 [D8 [D9 D10]]]]]]]]]]]]]]].
  destruct (negb (is_typ SYSLOGMSG k3)).
  - pose proof T3 as T3'. unfold tok_is in T3'. rewrite T3'. rewrite (sj_len _ _ _ _ _ (pj_s _ _ _ _ _ P3)), (pj_best _ _ _ _ _ P3).
    destruct ((Z.of_nat (length (tlit k3)) <? to_int (s_msglen (p_s q3)))%Z && p_best q3); [|apply (last0_J h3 s); assumption].
    rewrite D1, D2. destruct re as [re|]; cbn [option_map]; apply (last_J h4 s); assumption.
  - rewrite D1, D2. cbn [r_err]. rewrite D4, (pj_best _ _ _ _ _ P3), D5.
    assert (Ee : match option_map EMachine re with Some _ => true | None => false end = match re with Some _ => true | None => false end) by (destruct re; reflexivity). rewrite Ee.
    destruct (negb (p_best q3) && match re with Some _ => true | None => false end) eqn:Eb.
    + apply andb_true_iff in Eb as [B1 B2]. apply negb_true_iff in B1.
      assert (m = None) as -> by (apply D8; [exact B1|destruct re; congruence]).
      assert (a = None) as -> by (destruct a as [a|]; [cbn in D9; destruct (read5 h4 a); discriminate D9|reflexivity]).
      apply (last0_J h4 s); assumption.
    + match goal with |- context[m_emit ?w _ _ _] => change w with (with_heap h4 s) end.
      destruct (emit_J h4 s v p4 q4 a m (option_map EMachine re) (script_now sc) D10 D3 D9) as [s5 [v5 [-> [F2 P5]]]].
      pose proof (pscan_J _ _ _ _ _ P5) as Q. destruct (mp_scan (w_heap s5) p4) as [[[t6 h6] p6]|], (pscan q4) as [[k6 q6]|]; try tauto; try exact I.
      destruct Q as [T6 [P6 [M6 [N6 E6]]]]. rewrite (is_typ_J _ _ _ EOF T6). destruct (is_typ EOF k6).
      * cbn [run_out]. split; [reflexivity|]. exists v5. split; [cbn [deliver r_msg]; rewrite F2; reflexivity|]. split; [apply PJ_heap; exact P6|exact E6].
      * assert (P7 : PJ (w_heap (with_heap h6 s5)) (with_heap h6 s5) v5 (mp_unscan p6) (set_p_stepback true q6)).
        { apply unscan_J; [apply PJ_heap; exact P6|]. rewrite M6, N6. exact T6. }
        specialize (IH _ _ (script_next sc) _ _ P7). unfold run_out in IH. destruct (rec _ _ _) as [[[rs s8] p8]|], (vrec _) as [[rs' q8]|]; try tauto; try exact I.
        destruct IH as [-> [v8 [G1 G2]]]. cbn [run_out]. split; [reflexivity|]. exists v8. split; [|exact G2]. cbn [deliver r_msg]. rewrite F2. exact G1.
Qed.
Lemma run_J n : forall s v sc p q, PJ (w_heap s) s v p q -> run_out v sc (m_run n s sc p) (run n q).
Proof.
  induction n as [|n IH]; intros s v sc p q P; cbn [m_run run]; [exact I|].
  pose proof (pscan_J _ _ _ _ _ P) as Q. destruct (mp_scan (w_heap s) p) as [[[t h] p']|], (pscan q) as [[k q']|]; try tauto; try exact I.
  destruct Q as [T [P' [_ [_ E]]]]. apply body_J; auto.
Qed.

(* ---------- streams ---------- *)
(* a parser between two streams *)
Record PO (p : mparser) (q : oparser) : Prop := mkPO {
  po_max : mp_max p = p_max q; po_best : mp_best p = p_best q; po_step : mp_stepback p = false; po_step' : p_stepback q = false;
  po_clean : clean (mp_internal p); po_hb : hm_best (mp_internal p) = p_best q; po_hc : m_compliantMsg (hm_x (mp_internal p)) = false;
  po_ib : bestEffort (p_internal q) = p_best q; po_ic : compliant (p_internal q) = false }.
Lemma PJ_PO h s v p q : PJ h s v p q -> mp_stepback p = false -> PO p q.
Proof. intros [K1 K2 K3 K4 K5 K6 K7 K8 K9 K10] E. constructor; congruence. Qed.
Lemma PJ_inv s v p q : PJ (w_heap s) s v p q -> inv s v.
Proof. intros P. destruct (pj_s _ _ _ _ _ P) as [[a [I _]] _ _]. destruct s. exact (head_drop _ _ _ _ I). Qed.
Lemma stream_J s v sc p q rd : inv s v -> PO p q -> run_out v sc (m_parse_stream s sc p rd) (parse_stream q (calm rd)).
Proof.
  intros I [K1 K2 K3 K3' K6 K7 K8 K9 K10]. unfold m_parse_stream, parse_stream, m_new_scanner, h_new_reader_size, alloc. cbn [fst snd].
  set (n := Z.to_nat (Z.max (add_int (mp_max p) 20) 16)).
  apply run_J. constructor; cbn; auto; try congruence.
  constructor; cbn; auto. exists (repeat x00 n). split.
  - pose proof (head_new s v (repeat x00 n) I) as H. rewrite repeat_length in H. exact H.
  - unfold ab_of, new_reader_size. constructor; cbn [a_arr a_r a_w a_last a_err a_rd f_size f_un f_r f_last f_err f_rd hb_r hb_w hb_last hb_err hb_rd]; rewrite ?repeat_length; try reflexivity; unfold n; rewrite <- ?K1; lia.
Qed.
Lemma streams_J opts l : forall before s v p, inv s v -> PO p (after_streams (new_parser opts) before) ->
  exists seen s' v', m_streams s p l = Some (seen, s') /\ map Some seen = map (fun x => emitted opts [] (calm (fst x))) l /\
    deliver_all v seen (map snd l) = Some v' /\ inv s' v'.
Proof.
  induction l as [|[rd sc] l IH]; intros before s v p I P; cbn [m_streams map fst snd]; [exists [], s, v; auto|].
  pose proof (stream_J s v sc p _ rd I P) as R. destruct (stream_total opts before (calm rd)) as [rs [q' E]]. rewrite E in R.
  destruct (m_parse_stream s sc p rd) as [[[rs' s1] p1]|]; cbn [run_out] in R; [|destruct R]. destruct R as [-> [v1 [D1 [P1 E1]]]].
  assert (Ea : after_streams (new_parser opts) (before ++ [calm rd]) = q').
  { clear -E. destruct (new_parser_ok opts) as [_ [_ [N3 N4]]]. revert E N3 N4. generalize (new_parser opts).
    induction before as [|x before IH]; intros p E H1 H2; cbn [app after_streams] in *; [rewrite E; reflexivity|].
    destruct (stream_spec_c p x H1 H2) as [rs0 [p' [E0 [_ [S1 [S2 [S3 [S4 S5]]]]]]]]. rewrite E0 in *. apply IH; auto. destruct H2. unfold pok. split; congruence. }
  destruct (IH (before ++ [calm rd]) s1 v1 p1 (PJ_inv _ _ _ _ P1)) as [seen [s2 [v2 [F1 [F2 [F3 F4]]]]]]; [rewrite Ea; eapply PJ_PO; eauto|].
  rewrite F1. exists (rs :: seen), s2, v2. split; [reflexivity|]. split; [|split; [cbn [deliver_all]; rewrite D1; exact F3|exact F4]].
  cbn [map]. rewrite F2. f_equal. rewrite <- (stream_reuse opts before). unfold emitted. rewrite E. reflexivity.
Qed.
Lemma new_PO opts : PO (m_new_parser opts) (new_parser opts).
Proof. destruct (new_parser_ok opts) as [_ [_ [N3 [N4 N5]]]]. constructor; auto; try reflexivity. Qed.

(* C72: a program that has done anything before (l0) gives streams to one octet counting parser; the readers cut them as they like and
   scribble over the rest of the slices they are given; the listener does anything it likes after each result (SpecWorld.op).  Each
   result is, when it is delivered, the one the value model (MOctet.v, C36-C43, C58) gives for the bytes of that stream; afterwards every
   message is what its own delivery and the listener's own edits made it, whatever went through the buffer since. *)
Theorem octet_results_are_values g l0 opts streams : exists s0 v0 seen s v,
  w_ops (world0 g) l0 = Some s0 /\ v_ops (values0 g) l0 = Some v0 /\
  m_streams s0 (m_new_parser opts) streams = Some (seen, s) /\
  map Some seen = map (fun x => emitted opts [] (calm (fst x))) streams /\
  deliver_all v0 seen (map snd streams) = Some v /\
  map (read5 (w_heap s)) (w_msgs s) = map Some (v_msgs v) /\ map (slice_read (w_heap s)) (w_buf s) = map Some (v_buf v) /\ w_trace s = v_trace v.
Proof.
  assert (G : forall l s v, inv s v -> exists s' v', w_ops s l = Some s' /\ v_ops v l = Some v' /\ inv s' v').
  { clear. induction l as [|o l IH]; intros s v I; cbn [w_ops v_ops]; [exists s, v; auto|].
    destruct (op_ok s v o I) as [s' [v' [-> [-> I']]]]. apply IH. exact I'. }
  destruct (G l0 _ _ (inv0 g)) as [s0 [v0 [H1 [H2 I0]]]].
  destruct (streams_J opts streams [] s0 v0 (m_new_parser opts) I0 (new_PO opts)) as [seen [s [v [F1 [F2 [F3 F4]]]]]].
  exists s0, v0, seen, s, v. split; [exact H1|]. split; [exact H2|]. split; [exact F1|]. split; [exact F2|]. split; [exact F3|]. apply inv_read. exact F4.
Qed.
Lemma deliver_idle rs : forall v, deliver v rs [] = Some (Values (v_mach v) (v_buf v) (v_msgs v ++ messages_of rs) (v_g v) (v_trace v)).
Proof.
  unfold messages_of. induction rs as [|r rs IH]; intros v; cbn [deliver script_now script_next v_ops map concat]; [rewrite app_nil_r; destruct v; reflexivity|].
  rewrite IH. destruct (r_msg r); cbn [vkeep v_mach v_buf v_msgs v_g v_trace app]; [rewrite <- app_assoc|]; reflexivity.
Qed.
(* a listener that only keeps the messages: at the end it has those of all the streams *)
Theorem octet_messages_stay opts rds : exists seen s,
  m_streams (world0 (Globals [] [])) (m_new_parser opts) (map (fun rd => (rd, [])) rds) = Some (seen, s) /\
  map Some seen = map (fun rd => emitted opts [] (calm rd)) rds /\
  map (read5 (w_heap s)) (w_msgs s) = map Some (concat (map messages_of seen)).
Proof.
  destruct (octet_results_are_values (Globals [] []) [] opts (map (fun rd => (rd, [])) rds)) as [s0 [v0 [seen [s [v [H1 [H2 [H3 [H4 [H5 [H6 _]]]]]]]]]]].
  cbn in H1, H2. injection H1 as <-. injection H2 as <-. rewrite !map_map in H4, H5. cbn [fst snd] in H4, H5. exists seen, s. split; [exact H3|]. split; [exact H4|].
  rewrite H6. f_equal. clear H3 H6.
  assert (L : length seen = length rds) by (rewrite <- (map_length Some seen), H4; apply map_length). clear H4.
  assert (Q : forall v1, deliver_all v1 seen (map (fun _ => []) rds) = Some v -> v_msgs v = v_msgs v1 ++ concat (map messages_of seen)); [|apply (Q _ H5)].
  clear H5. revert rds L. induction seen as [|rs seen IH]; intros [|rd rds] L v1 E; cbn [deliver_all map concat] in *; try discriminate L.
  - injection E as <-. rewrite app_nil_r. reflexivity.
  - rewrite deliver_idle in E. apply (IH rds) in E; [|cbn in L; lia]. rewrite E. cbn [v_msgs]. rewrite <- app_assoc. reflexivity.
Qed.

(* A buffer of 42 bytes, three messages, a reader that scribbles, a listener that edits what it was given.  The bytes of the first message
   are gone from the buffer at the end, the message is not. *)
Definition demo_rd : mreader :=
  [((lit "21 <11>1 - host1 - - - -21", None), lit "XXXXXXXXXXXXXXXXXXXXXXXXXXXXX"); ((lit " <12>1 - host2 - - - -", None), lit "YYYYYY"); ((lit "21 <13>1 - host3 - - - -", None), lit "Z")].
Definition demo_sc : list (list op) := [[]; [OWrite 0 (WHostname (lit "edited")); OSet 1 (SetAppname (lit "app"))]].
Example demo_mem : match m_streams (world0 (Globals [] [])) (m_new_parser [OMaxLength 22]) [(demo_rd, demo_sc)] with
  | Some ([rs], s) => (map (fun r => match r_msg r with Some m => hostname m | None => None end) rs,
                       map (fun a => match read5 (w_heap s) a with Some m => (priority m, hostname m, appname m) | None => (None, None, None) end) (w_msgs s),
                       hget (w_heap s) 0)
  | _ => ([], [], None) end
  = ([Some (lit "host1"); Some (lit "host2"); Some (lit "host3")],
     [(Some 11%Z, Some (lit "edited"), None); (Some 12%Z, Some (lit "host2"), Some (lit "app")); (Some 13%Z, Some (lit "host3"), None)],
     Some (KArr (lit "21 <13>1 - host3 - - - -ZYYYXXXXXXXXXXXXXX"))).
Proof. vm_compute. reflexivity. Qed.
