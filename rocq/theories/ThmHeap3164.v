(* rfc3164 Parse only adds to memory. *)
From Verif Require Import Bytes GoMap GoTime Cal Common GotoLang Heap HBuilder SpecHeap HExec ThmHeap M3164Def Gen3164 A3164 M3164 Ref3164 Thm3164 HParse3164.
Local Open Scope nat_scope.

Definition erase3 (x : vars) : vars := set_m_out msg_zero x.
Lemma link3164 : code3164 = link prog3164.
Proof. vm_cast_no_check (eq_refl code3164). Qed.
Definition any3 (a : act) (n : bool) : bool := true.
Definition no3 (a : act) (n : bool) : bool := false.
Lemma flow3164 : forallb (fun lb => flow any3 no3 false (snd lb)) prog3164 = true.
Proof. vm_compute. reflexivity. Qed.

(* output, the object *)
Definition block (m : msg3164) : heap :=
  [KOut3 (o_prioritySet m) (o_timestampSet m) (o_priority m); KTime (o_timestamp m); KStr (o_hostname m); KStr (o_tag m); KStr (o_content m); KStr (o_message m)].
Lemma hput_right h b k c : hput (h ++ b) (length h + k) c = h ++ hput b k c.
Proof. induction h as [|x h IH]; cbn; [reflexivity|]. rewrite IH. reflexivity. Qed.
Lemma hget_right h b k : hget (h ++ b) (length h + k) = hget b k.
Proof. unfold hget. rewrite nth_error_app2 by lia. f_equal. lia. Qed.
Lemma hget_right0 h b : hget (h ++ b) (length h) = hget b 0.
Proof. rewrite <- (Nat.add_0_r (length h)) at 1. apply hget_right. Qed.
Lemma hput_right0 h b c : hput (h ++ b) (length h) c = h ++ hput b 0 c.
Proof. rewrite <- (Nat.add_0_r (length h)) at 1. apply hput_right. Qed.

Section S.
Variables (h : heap) (d : slice) (data : bytes).
Hypothesis Hd : slice_read h d = Some data.
Definition prel3 (b : bool) (x : vars) (y : hp3) : Prop := hp3_x y = erase3 x /\ hp3_heap y = h ++ block (m_out x).
Lemma text_sim3 b x y q (f : bytes -> vars) (k : bytes -> option hp3) : prel3 b x y ->
  (forall t, orel (prel3 false) (Some (f t)) (k t)) -> orel (prel3 false) (with_text data q x f) (h_text3 d q y k).
Proof.
  intros [B1 B2] H. unfold with_text, text_of, h_text3. rewrite B1, B2. cbn [erase3 m_pb set_m_out].
  pose proof (slice_read_sub _ _ _ (m_pb x) q (slice_read_app _ (block (m_out x)) _ _ Hd)) as S.
  destruct (zslice data (m_pb x) q) as [t|]; [|rewrite S; exact I]. destruct S as [u [-> ->]]. apply H.
Qed.
Lemma act_sim3 b a q x y : prel3 b x y -> orel (prel3 false) (sem_act a data q x) (hsem3 (length h) d a data q y).
Proof.
  intros B. pose proof B as [B1 B2]. destruct y as [hy xy]. cbn [hp3_x hp3_heap] in B1, B2. subst hy xy.
  destruct a; cbn [sem_act hsem3 hp3_heap hp3_x].
  all: try (eapply text_sim3; [exact B|intros t]).
  all: unfold on_x3, set_cell3, h_out3; cbn [hp3_heap hp3_x].
  all: rewrite ?hget_right, ?hget_right0.
  all: cbn [hget block nth_error].
  all: unfold set_cell3; cbn [hp3_heap hp3_x orel].
  all: rewrite ?hput_right, ?hput_right0.
  all: cbn [hput block].
  all: split; [destruct x; reflexivity|].
  all: destruct x as [x1 x2 x3 x4 x5 x6]; destruct x4 as [y1 y2 y3 y4 y5 y6 y7 y8].
  all: cbv beta iota delta [hp3_heap hp3_x block upd erase3 m_pb m_err m_cfg m_out m_t m_tval set_m_pb set_m_err set_m_cfg set_m_out set_m_t set_m_tval o_prioritySet o_timestampSet o_priority
    o_timestamp o_hostname o_tag o_content o_message set_o_prioritySet set_o_timestampSet set_o_priority set_o_timestamp set_o_hostname set_o_tag set_o_content set_o_message].
  all: reflexivity.
Qed.
Lemma cnd_sim3 b c x y : prel3 b x y -> sem_cnd c x = hcnd3 c y.
Proof. intros [B1 B2]. unfold hcnd3. rewrite B1. destruct c; reflexivity. Qed.
End S.

(* the pointers export sets *)
Definition base_of (o a : addr) (m : msg3164) : base :=
  let p (k : addr) (s : bytes) : option addr := if bseqb s (lit "-") || bseqb s [] then None else Some (o + k) in
  Base (Some (a + 2)) (Some (a + 3)) (Some (a + 1)) (if o_timestampSet m then Some (o + 1) else None) (p 2 (o_hostname m)) (p 3 (o_tag m)) (p 4 (o_content m)) None
    (match o_message m with [] => None | _ => Some (o + 5) end).
Lemma export3_ok h m : let o := length h in let a := o + 6 in
  h_export3 (h ++ block m) o = Some (h ++ block m ++ [KMsg3 (base_of o a m); KU8 (o_priority m); KU8 (o_priority m / 8); KU8 (o_priority m mod 8)], a).
Proof.
  cbv zeta. set (o := length h). unfold h_export3. rewrite hget_right0. cbn [hget block nth_error]. unfold alloc.
  set (a := length (h ++ block m)). fold (block m). assert (Ea : a = o + 6) by (unfold a; rewrite app_length; reflexivity).
  assert (G : forall k r, hget ((h ++ block m) ++ r) (a + k) = hget r k) by (intros; apply hget_right).
  assert (Gb : forall k r, k < 6 -> hget ((h ++ block m) ++ r) (o + k) = hget (block m) k).
  { intros k r L. rewrite hget_old by (rewrite app_length; cbn [length block]; unfold o; lia). apply hget_right. }
  assert (P0 : forall c b r, hput ((h ++ block m) ++ b :: r) a c = (h ++ block m) ++ c :: r) by (intros; apply (hput_right0 (h ++ block m))).
  assert (G0 : forall b r, hget ((h ++ block m) ++ b :: r) a = Some b) by (intros; apply (hget_right0 (h ++ block m))).
  replace (h ++ block m ++ _) with ((h ++ block m) ++ [KMsg3 (base_of o (o + 6) m); KU8 (o_priority m); KU8 (o_priority m / 8); KU8 (o_priority m mod 8)]) by (rewrite <- app_assoc; reflexivity).
  unfold h_compute3. rewrite G0. unfold alloc. rewrite <- !(app_assoc (h ++ block m)). cbn [app].
  replace (length ((h ++ block m) ++ [KMsg3 base_nil])) with (a + 1) by (rewrite (app_length (h ++ block m)); reflexivity).
  replace (length ((h ++ block m) ++ [KMsg3 base_nil; KU8 (o_priority m)])) with (a + 2) by (rewrite (app_length (h ++ block m)); reflexivity).
  replace (length ((h ++ block m) ++ [KMsg3 base_nil; KU8 (o_priority m); KU8 (o_priority m / 8)])) with (a + 3) by (rewrite (app_length (h ++ block m)); reflexivity).
  rewrite P0. cbn [obind3].
  set (r := [KU8 (o_priority m); KU8 (o_priority m / 8); KU8 (o_priority m mod 8)]).
  assert (A : forall f b, h_assign3 ((h ++ block m) ++ KMsg3 b :: r) a f = Some ((h ++ block m) ++ KMsg3 (f b) :: r)) by (intros; unfold h_assign3; rewrite G0, P0; reflexivity).
  assert (Q : forall k s f b, k < 6 -> hget (block m) k = Some (KStr s) ->
    h_point_str3 ((h ++ block m) ++ KMsg3 b :: r) a (o + k) f = Some ((h ++ block m) ++ KMsg3 (if bseqb s (lit "-") || bseqb s [] then b else f (Some (o + k)) b) :: r)).
  { intros k s f b L E. unfold h_point_str3. rewrite Gb, E by exact L. rewrite A. destruct (_ || _); reflexivity. }
  rewrite A. set (b0 := set_p_severity _ _).
  replace (if o_timestampSet m then _ else _) with (Some ((h ++ block m) ++ KMsg3 (if o_timestampSet m then set_p_timestamp (Some (o + 1)) b0 else b0) :: r)) by (destruct (o_timestampSet m); reflexivity).
  cbn [obind3]. rewrite (Q 2 (o_hostname m)) by (reflexivity || lia). cbn [obind3]. rewrite (Q 3 (o_tag m)) by (reflexivity || lia). cbn [obind3].
  rewrite (Q 4 (o_content m)) by (reflexivity || lia). cbn [obind3]. rewrite Gb by lia. cbn [hget block nth_error]. fold (block m). rewrite A. unfold base_of, b0. rewrite Ea.
  destruct (o_timestampSet m), (bseqb (o_hostname m) (lit "-") || bseqb (o_hostname m) []), (bseqb (o_tag m) (lit "-") || bseqb (o_tag m) []),
    (bseqb (o_content m) (lit "-") || bseqb (o_content m) []), (o_message m) as [|c s] eqn:E4; reflexivity.
Qed.
Lemma read3_ok h m : let o := length h in let a := o + 6 in
  read3 (h ++ block m ++ [KMsg3 (base_of o a m); KU8 (o_priority m); KU8 (o_priority m / 8); KU8 (o_priority m mod 8)]) a = Some (export m).
Proof.
  cbv zeta. set (o := length h). set (r := KMsg3 _ :: _).
  assert (G : forall k, hget (h ++ block m ++ r) (o + k) = hget (block m ++ r) k) by (intros; apply hget_right).
  assert (D : forall {A} (f : cell -> option A) k c v, hget (block m ++ r) k = Some c -> f c = Some v -> deref (h ++ block m ++ r) f (Some (o + k)) = Some (Some v)).
  { intros A f k c v H1 H2. unfold deref. rewrite G, H1, H2. reflexivity. }
  assert (Hm : hget (h ++ block m ++ r) (o + 6) = Some (KMsg3 (base_of o (o + 6) m))) by (rewrite G; reflexivity).
  unfold read3. rewrite Hm. cbn [base_of p_facility p_severity p_priority p_timestamp p_hostname p_appname p_procID p_msgID p_message].
  rewrite <- !(Nat.add_assoc o). cbn [Nat.add].
  rewrite (D Z u8_in 8 _ _ eq_refl eq_refl), (D Z u8_in 9 _ _ eq_refl eq_refl), (D Z u8_in 7 _ _ eq_refl eq_refl). cbn [bind].
  assert (T : deref (h ++ block m ++ r) time_in (if o_timestampSet m then Some (o + 1) else None) = Some (if o_timestampSet m then Some (o_timestamp m) else None)).
  { destruct (o_timestampSet m); [apply (D _ time_in 1 _ _ eq_refl eq_refl)|reflexivity]. }
  rewrite T. cbn [bind].
  assert (Q : forall k s, hget (block m ++ r) k = Some (KStr s) -> deref (h ++ block m ++ r) str_in (if bseqb s (lit "-") || bseqb s [] then None else Some (o + k)) = Some (opt_str s)).
  { intros k s E. unfold opt_str. destruct (_ || _); [reflexivity|]. apply (D _ str_in k _ _ E eq_refl). }
  rewrite (Q 2 _ eq_refl), (Q 3 _ eq_refl), (Q 4 _ eq_refl). cbn [bind].
  assert (M : deref (h ++ block m ++ r) str_in (match o_message m with [] => None | _ => Some (o + 5) end) = Some (match o_message m with [] => None | s => Some s end)).
  { pose proof (D _ str_in 5 _ _ eq_refl eq_refl) as X. destruct (o_message m); [reflexivity|exact X]. }
  rewrite M. reflexivity.
Qed.
Lemma reach3_ok h m b : let o := length h in let a := o + 6 in
  reach (h ++ block m ++ [KMsg3 (base_of o a m); KU8 (o_priority m); KU8 (o_priority m / 8); KU8 (o_priority m mod 8)]) a b -> o <= b.
Proof.
  cbv zeta. set (o := length h). set (r := KMsg3 _ :: _). intros R.
  assert (G : forall k, hget (h ++ block m ++ r) (o + k) = hget (block m ++ r) k) by (intros; apply hget_right).
  assert (X : b = o + 6 \/ o <= b /\ forall c, hget (h ++ block m ++ r) b = Some c -> targets c = []).
  { induction R as [|b c x R IH Hc Hx]; [left; reflexivity|]. right. destruct IH as [-> | [_ IH]]; [|rewrite (IH _ Hc) in Hx; destruct Hx].
    rewrite G in Hc. cbn in Hc. injection Hc as <-. cbn [targets] in Hx.
    assert (L : forall k, In k [1; 2; 3; 4; 5; 7; 8; 9] -> o <= o + k /\ forall c, hget (h ++ block m ++ r) (o + k) = Some c -> targets c = []).
    { intros k Hk. split; [lia|]. intros c. rewrite G. cbn in Hk. repeat (destruct Hk as [<-|Hk]; [cbn; intros E; injection E as <-; reflexivity|]). destruct Hk. }
    assert (E : exists k, x = o + k /\ In k [1; 2; 3; 4; 5; 7; 8; 9]).
    { unfold base_addrs, base_of in Hx. cbn [p_facility p_severity p_priority p_timestamp p_hostname p_appname p_procID p_msgID p_message] in Hx.
      repeat (apply in_app_or in Hx as [Hx|Hx]).
      - destruct Hx as [<-|[]]. exists 8. split; [lia|cbn; tauto].
      - destruct Hx as [<-|[]]. exists 9. split; [lia|cbn; tauto].
      - destruct Hx as [<-|[]]. exists 7. split; [lia|cbn; tauto].
      - destruct (o_timestampSet m); [|destruct Hx]. destruct Hx as [<-|[]]. exists 1. split; [lia|cbn; tauto].
      - destruct (_ || _); [destruct Hx|]. destruct Hx as [<-|[]]. exists 2. split; [lia|cbn; tauto].
      - destruct (_ || _); [destruct Hx|]. destruct Hx as [<-|[]]. exists 3. split; [lia|cbn; tauto].
      - destruct (_ || _); [destruct Hx|]. destruct Hx as [<-|[]]. exists 4. split; [lia|cbn; tauto].
      - destruct Hx.
      - destruct (o_message m); [destruct Hx|]. destruct Hx as [<-|[]]. exists 5. split; [lia|cbn; tauto]. }
    destruct E as [k [-> Hk]]. apply L. exact Hk. }
  destruct X as [-> | [X _]]; lia.
Qed.

(* a machine as NewMachine and any calls of Parse leave it *)
Inductive reachable_machine3 (best : bool) (c : config) : hmachine3 -> Prop :=
| rm3_new : reachable_machine3 best c (h_new_machine3 best c)
| rm3_parse m h d data m' h' r : reachable_machine3 best c m -> slice_read h d = Some data -> h_parse3 m h d = (m', h', r) -> reachable_machine3 best c m'.
Lemma h_parse3_ok best c m h d data : hm3_x m = erase3 (hm3_x m) -> hm3_best m = best -> m_cfg (hm3_x m) = c -> slice_read h d = Some data ->
  exists m' new a e, h_parse3 m h d = (m', h ++ new, HRet3 a e) /\ hm3_x m' = erase3 (hm3_x m') /\ hm3_best m' = best /\ m_cfg (hm3_x m') = c /\
    match a with
    | Some a => Ret (read3 (h ++ new) a) e = snd (parse (new_machine best c) data) /\ forall b, reach (h ++ new) a b -> length h <= b
    | None => Ret None e = snd (parse (new_machine best c) data)
    end.
Proof.
  intros Hc Hb Hf Hd. unfold h_parse3. rewrite Hd. unfold h_new_out3. change [KOut3 false false 0; KTime time_zero; KStr []; KStr []; KStr []; KStr []] with (block msg_zero). set (x0 := prepare (hm3_x m)).
  assert (Ex : x0 = erase3 x0) by (unfold x0; rewrite Hc; reflexivity).
  pose proof (exec_rel sem_act sem_cnd (hsem3 (length h) d) hcnd3 prog3164 data any3 no3 (prel3 h) (fun x y H => H)
    (fun b a p x y _ => act_sim3 h d data Hd b a p x y) (fun b c x y => cnd_sim3 h b c x y) flow3164 (exec_fuel data) LEntry (G 0 1 0 x0) (G 0 1 0 (HP3 (h ++ block msg_zero) x0))) as X.
  rewrite <- link3164 in X. specialize (X (conj eq_refl (conj eq_refl (conj eq_refl (conj Ex eq_refl))))).
  pose proof (parse_spec (Machine (hm3_x m) (hm3_best m)) data) as [P1 [P2 P3]].
  assert (PE : snd (parse (new_machine best c) data) = snd (parse (Machine (hm3_x m) (hm3_best m)) data)).
  { rewrite P1. destruct (parse_spec (new_machine best c) data) as [-> _]. unfold config_of. cbn [bestEffort mv new_machine m_cfg]. rewrite Hb, Hf. reflexivity. }
  destruct (parse3164_total (Machine (hm3_x m) (hm3_best m)) data) as [vr [ve Et]].
  rewrite PE. clear P1 PE. unfold parse in *. cbn [mv bestEffort] in *. fold x0 in P2, P3, Et |- *.
  destruct (exec sem_act sem_cnd code3164 data (exec_fuel data) LEntry (G 0 1 0 x0)) as [cs x| |]; [|discriminate Et|discriminate Et].
  destruct (exec (hsem3 (length h) d) hcnd3 code3164 data (exec_fuel data) LEntry (G 0 1 0 (HP3 (h ++ block msg_zero) x0))) as [cs' y| |]; cbn in X; try tauto.
  destruct X as [<- [X1 X2]]. clear Et. cbn [fst snd config_of mv] in P3.
  assert (Em : m_err (hp3_x y) = m_err x) by (rewrite X1; reflexivity).
  assert (Emin : h_minimal3 (hp3_heap y) (length h) = minimal (m_out x)) by (unfold h_minimal3; rewrite X2, hget_right0; reflexivity).
  assert (Ecl : hm3_x (HMachine3 (hp3_x y) (hm3_best m)) = erase3 (hm3_x (HMachine3 (hp3_x y) (hm3_best m)))) by (cbn; rewrite X1; reflexivity).
  assert (Ecf : m_cfg (hm3_x (HMachine3 (hp3_x y) (hm3_best m))) = c) by (cbn; rewrite X1; unfold config_of in P3; cbn in P3; rewrite <- Hf; exact P3).
  rewrite Em, Emin, X2, export3_ok. cbn [h_finish3].
  pose proof (read3_ok h (m_out x)) as R. pose proof (reach3_ok h (m_out x)) as Q. cbv zeta in R, Q.
  destruct ((cs <? 333) || (cs =? 373))%N; [destruct (hm3_best m && minimal (m_out x)) eqn:Eb|].
  - eexists _, _, _, _. split; [reflexivity|]. split; [exact Ecl|]. split; [exact Hb|]. split; [exact Ecf|]. cbn [snd]. rewrite R. auto.
  - eexists _, _, _, _. split; [reflexivity|]. split; [exact Ecl|]. split; [exact Hb|]. split; [exact Ecf|]. reflexivity.
  - eexists _, _, _, _. split; [reflexivity|]. split; [exact Ecl|]. split; [exact Hb|]. split; [exact Ecf|]. cbn [snd]. rewrite R. auto.
Qed.
Lemma reachable_clean3 best c m : reachable_machine3 best c m -> hm3_x m = erase3 (hm3_x m) /\ hm3_best m = best /\ m_cfg (hm3_x m) = c.
Proof.
  induction 1 as [|m h d data m' h' r H IH Hd E]; [repeat split|]. destruct IH as [I1 [I2 I3]].
  destruct (h_parse3_ok best c m h d data I1 I2 I3 Hd) as [m2 [new [a [e [E2 [J1 [J2 [J3 _]]]]]]]]. rewrite E in E2. injection E2 as -> _ _. auto.
Qed.
(* C64: in any memory, rfc3164 Parse only adds to it: the message it returns, seen through its pointers, is what Parse of a new machine gives on
   the bytes of the input, and all that can be reached from it is new. *)
Theorem parse3164_only_adds best c m h d data : reachable_machine3 best c m -> slice_read h d = Some data ->
  exists m' new a e, h_parse3 m h d = (m', h ++ new, HRet3 a e) /\
    match a with
    | Some a => Ret (read3 (h ++ new) a) e = snd (parse (new_machine best c) data) /\ forall b, reach (h ++ new) a b -> length h <= b
    | None => Ret None e = snd (parse (new_machine best c) data)
    end.
Proof.
  intros R Hd. destruct (reachable_clean3 _ _ _ R) as [C1 [C2 C3]].
  destruct (h_parse3_ok best c m h d data C1 C2 C3 Hd) as [m' [new [a [e [E [_ [_ [_ X]]]]]]]]. exists m', new, a, e. auto.
Qed.
(* a machine and a memory that have been used *)
Example used_memory3 : exists m h d data, reachable_machine3 true (Config 2003 false None None) m /\ slice_read h d = Some data /\ length h = 11%nat /\
  match h_parse3 m h d with (_, h', HRet3 (Some a) None) => (length h' = 21 /\ 11 <= a)%nat /\
    match read3 h' a with Some v => hostname v = Some (lit "mymachine") /\ procID v = Some (lit "77") | None => False end | _ => False end.
Proof.
  set (t := lit "<34>Oct 11 22:14:15 mymachine su[77]: failed"). set (h0 := [KArr t]). set (d := Slice 0 0 44 44).
  destruct (h_parse3 (h_new_machine3 true (Config 2003 false None None)) h0 d) as [[m h] r] eqn:E.
  exists m, h, d, t. split; [eapply (rm3_parse true (Config 2003 false None None) _ h0 d); [apply rm3_new|reflexivity|exact E]|].
  vm_compute in E. injection E as <- <- _. split; [reflexivity|]. split; [reflexivity|]. vm_compute. repeat constructor.
Qed.
