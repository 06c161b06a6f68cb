(* The byte-range tables of the automata describe exactly UTF-8. *)
From Verif Require Import Bytes GoMap GoTime CommonFacts M5424Def A5424 M5424 Spec5424 Ref5424b Grammar5424.
Local Open Scope N_scope.

Lemma bN_byte_of n : n < 256 -> bN (byte_of n) = n.
Proof.
  intros H. unfold byte_of. destruct (Byte.of_N n) eqn:E.
  - apply Byte.to_of_N in E. exact E.
  - apply Byte.of_N_None_iff in E. lia.
Qed.
Lemma byte_of_bN b : byte_of (bN b) = b.
Proof. apply bN_inj. apply bN_byte_of. apply bN_lt. Qed.

(* t completes the character whose scanning is in tail state i *)
Fixpoint utail (i : N) (t : bytes) : Prop :=
  match t with
  | [] => False
  | b :: t' => match utf_tail i (bN b) with
               | None => False | Some None => t' = [] | Some (Some j) => utail j t' end
  end.

Lemma btw_true lo hi c : lo <= c <= hi -> btw lo hi c = true.
Proof. intros H. unfold btw. apply andb_true_iff. rewrite !N.leb_le. lia. Qed.
Lemma btw_spec lo hi c : btw lo hi c = true <-> lo <= c <= hi.
Proof. unfold btw. rewrite andb_true_iff, !N.leb_le. lia. Qed.
Lemma btw_false lo hi c : c < lo \/ hi < c -> btw lo hi c = false.
Proof. intros H. unfold btw. apply andb_false_iff. rewrite !N.leb_gt. lia. Qed.

Ltac Zify.zify_post_hook ::= Z.to_euclidean_division_equations.

Lemma utail1 a : 128 <= a <= 191 -> utf_tail 0 a = Some None.
Proof. intros H. cbn. rewrite btw_true by lia. reflexivity. Qed.
Lemma utail2 a : 128 <= a <= 191 -> utf_tail 2 a = Some (Some 0).
Proof. intros H. cbn. rewrite btw_true by lia. reflexivity. Qed.

Lemma encode_cases c : scalar c ->
  (c < 128 /\ encode c = [byte_of c] /\ bN (byte_of c) = c) \/
  (128 <= c /\ exists b t i, encode c = b :: t /\ 128 <= bN b /\ utf_start (bN b) = Some i /\ utail i t).
Proof.
  intros [Hs Hns]. unfold encode.
  destruct (N.ltb_spec c 128) as [H|H]; [left; split; [exact H|split; [reflexivity|apply bN_byte_of; lia]]|right; split; [exact H|]].
  destruct (N.ltb_spec c 2048).
  { exists (byte_of (192 + c / 64)), [byte_of (128 + c mod 64)], 0. split; [reflexivity|].
    rewrite !bN_byte_of by lia. split; [lia|]. split.
    - unfold utf_start. rewrite btw_true by lia. reflexivity.
    - cbn [utail]. rewrite bN_byte_of by lia. rewrite utail1 by lia. reflexivity. }
  destruct (N.ltb_spec c 65536).
  { set (b1 := 224 + c / 4096). set (b2 := 128 + (c / 64) mod 64). set (b3 := 128 + c mod 64).
    assert (R1 : 224 <= b1 <= 239) by (unfold b1; lia). assert (R2 : 128 <= b2 <= 191) by (unfold b2; lia). assert (R3 : 128 <= b3 <= 191) by (unfold b3; lia).
    assert (F1 : b1 = 224 -> 160 <= b2) by (unfold b1, b2; lia).
    assert (F2 : b1 = 237 -> b2 <= 159) by (unfold b1, b2; lia). clearbody b1 b2 b3.
    exists (byte_of b1), [byte_of b2; byte_of b3].
    assert (E : exists i, utf_start b1 = Some i /\ utf_tail i b2 = Some (Some 0)).
    { unfold utf_start. rewrite (btw_false 194 223) by lia.
      destruct (N.eqb_spec b1 224); [exists 1; split; [reflexivity|]; cbn; rewrite btw_true by lia; reflexivity|].
      destruct (N.eqb_spec b1 237); [exists 3; split; [reflexivity|]; cbn; rewrite btw_true by lia; reflexivity|].
      rewrite btw_true by lia. exists 2. split; [reflexivity|]. apply utail2. lia. }
    destruct E as [i [E1 E2]]. exists i. split; [reflexivity|]. rewrite bN_byte_of by lia. split; [lia|]. split; [exact E1|].
    cbn [utail]. rewrite !bN_byte_of by lia. rewrite E2, utail1 by lia. reflexivity. }
  set (b1 := 240 + c / 262144). set (b2 := 128 + (c / 4096) mod 64). set (b3 := 128 + (c / 64) mod 64). set (b4 := 128 + c mod 64).
  assert (R1 : 240 <= b1 <= 244) by (unfold b1; lia). assert (R2 : 128 <= b2 <= 191) by (unfold b2; lia).
  assert (R3 : 128 <= b3 <= 191) by (unfold b3; lia). assert (R4 : 128 <= b4 <= 191) by (unfold b4; lia).
  assert (F1 : b1 = 240 -> 144 <= b2) by (unfold b1, b2; lia).
  assert (F2 : b1 = 244 -> b2 <= 143) by (unfold b1, b2; lia). clearbody b1 b2 b3 b4.
  exists (byte_of b1), [byte_of b2; byte_of b3; byte_of b4].
  assert (E : exists i, utf_start b1 = Some i /\ utf_tail i b2 = Some (Some 2)).
  { unfold utf_start. rewrite (btw_false 194 223) by lia.
    replace (b1 =? 224) with false by (symmetry; apply N.eqb_neq; lia). replace (b1 =? 237) with false by (symmetry; apply N.eqb_neq; lia).
    rewrite (btw_false 225 239) by lia.
    destruct (N.eqb_spec b1 240); [exists 4; split; [reflexivity|]; cbn; rewrite btw_true by lia; reflexivity|].
    destruct (N.eqb_spec b1 244).
    - exists 6. rewrite btw_false by lia. split; [reflexivity|]. cbn. rewrite btw_true by lia. reflexivity.
    - exists 5. rewrite btw_true by lia. split; [reflexivity|]. cbn. rewrite btw_true by lia. reflexivity. }
  destruct E as [i [E1 E2]]. exists i. split; [reflexivity|]. rewrite bN_byte_of by lia. split; [lia|]. split; [exact E1|].
  cbn [utail]. rewrite !bN_byte_of by lia. rewrite E2, utail2, utail1 by lia. reflexivity.
Qed.

(* conversely, start byte and tail make a character *)
Lemma utail_0 t : utail 0 t -> exists b, t = [b] /\ 128 <= bN b <= 191.
Proof.
  destruct t as [|b t]; [intros []|]. cbn [utail]. cbn [utf_tail].
  destruct (btw 128 191 (bN b)) eqn:E; [|intros []]. intros ->. apply btw_spec in E. eauto.
Qed.
Lemma utail_2 t : utail 2 t -> exists b c, t = [b; c] /\ 128 <= bN b <= 191 /\ 128 <= bN c <= 191.
Proof.
  destruct t as [|b t]; [intros []|]. cbn [utail]. cbn [utf_tail].
  destruct (btw 128 191 (bN b)) eqn:E; [|intros []]. intros H. apply utail_0 in H as [c [-> Hc]]. apply btw_spec in E. eauto.
Qed.

Lemma mk2 b1 b2 : 194 <= bN b1 <= 223 -> 128 <= bN b2 <= 191 -> exists c, scalar c /\ 128 <= c /\ encode c = [b1; b2].
Proof.
  intros H1 H2. set (c := (bN b1 - 192) * 64 + (bN b2 - 128)). exists c.
  assert (Hc : 128 <= c < 2048) by (unfold c; lia).
  split; [split; lia|]. split; [lia|]. unfold encode.
  replace (c <? 128) with false by (symmetry; apply N.ltb_ge; lia). replace (c <? 2048) with true by (symmetry; apply N.ltb_lt; lia).
  replace (192 + c / 64) with (bN b1) by (unfold c; lia). replace (128 + c mod 64) with (bN b2) by (unfold c; lia).
  rewrite !byte_of_bN. reflexivity.
Qed.
Lemma mk3 b1 b2 b3 : 224 <= bN b1 <= 239 -> 128 <= bN b2 <= 191 -> 128 <= bN b3 <= 191 ->
  (bN b1 = 224 -> 160 <= bN b2) -> (bN b1 = 237 -> bN b2 <= 159) -> exists c, scalar c /\ 128 <= c /\ encode c = [b1; b2; b3].
Proof.
  intros H1 H2 H3 F1 F2. set (c := (bN b1 - 224) * 4096 + (bN b2 - 128) * 64 + (bN b3 - 128)). exists c.
  assert (Hc : 2048 <= c < 65536) by (unfold c; lia).
  split; [split; [lia|unfold c; lia]|]. split; [lia|]. unfold encode.
  replace (c <? 128) with false by (symmetry; apply N.ltb_ge; lia). replace (c <? 2048) with false by (symmetry; apply N.ltb_ge; lia).
  replace (c <? 65536) with true by (symmetry; apply N.ltb_lt; lia).
  replace (224 + c / 4096) with (bN b1) by (unfold c; lia). replace (128 + (c / 64) mod 64) with (bN b2) by (unfold c; lia).
  replace (128 + c mod 64) with (bN b3) by (unfold c; lia).
  rewrite !byte_of_bN. reflexivity.
Qed.
Lemma mk4 b1 b2 b3 b4 : 240 <= bN b1 <= 244 -> 128 <= bN b2 <= 191 -> 128 <= bN b3 <= 191 -> 128 <= bN b4 <= 191 ->
  (bN b1 = 240 -> 144 <= bN b2) -> (bN b1 = 244 -> bN b2 <= 143) -> exists c, scalar c /\ 128 <= c /\ encode c = [b1; b2; b3; b4].
Proof.
  intros H1 H2 H3 H4 F1 F2. set (c := (bN b1 - 240) * 262144 + (bN b2 - 128) * 4096 + (bN b3 - 128) * 64 + (bN b4 - 128)). exists c.
  assert (Hc : 65536 <= c < 1114112) by (unfold c; lia).
  split; [split; lia|]. split; [lia|]. unfold encode.
  replace (c <? 128) with false by (symmetry; apply N.ltb_ge; lia). replace (c <? 2048) with false by (symmetry; apply N.ltb_ge; lia).
  replace (c <? 65536) with false by (symmetry; apply N.ltb_ge; lia).
  replace (240 + c / 262144) with (bN b1) by (unfold c; lia). replace (128 + (c / 4096) mod 64) with (bN b2) by (unfold c; lia).
  replace (128 + (c / 64) mod 64) with (bN b3) by (unfold c; lia). replace (128 + c mod 64) with (bN b4) by (unfold c; lia).
  rewrite !byte_of_bN. reflexivity.
Qed.

Lemma utail_encode b i t : utf_start (bN b) = Some i -> utail i t -> exists c, scalar c /\ 128 <= c /\ encode c = b :: t.
Proof.
  unfold utf_start.
  destruct (btw 194 223 (bN b)) eqn:E0.
  { intros H Ht. injection H as <-. apply utail_0 in Ht as [b2 [-> H2]]. apply btw_spec in E0. apply mk2; auto. }
  destruct (N.eqb_spec (bN b) 224) as [E1|E1].
  { intros H Ht. injection H as <-. destruct t as [|b2 t]; [destruct Ht|]. cbn [utail] in Ht. cbn [utf_tail] in Ht.
    destruct (btw 160 191 (bN b2)) eqn:E; [|destruct Ht]. apply utail_0 in Ht as [b3 [-> H3]]. apply btw_spec in E. apply mk3; lia. }
  destruct (N.eqb_spec (bN b) 237) as [E2|E2].
  { intros H Ht. injection H as <-. destruct t as [|b2 t]; [destruct Ht|]. cbn [utail] in Ht. cbn [utf_tail] in Ht.
    destruct (btw 128 159 (bN b2)) eqn:E; [|destruct Ht]. apply utail_0 in Ht as [b3 [-> H3]]. apply btw_spec in E. apply mk3; lia. }
  destruct (btw 225 239 (bN b)) eqn:E3.
  { intros H Ht. injection H as <-. apply utail_2 in Ht as [b2 [b3 [-> [H2 H3]]]]. apply btw_spec in E3. apply mk3; lia. }
  destruct (N.eqb_spec (bN b) 240) as [E4|E4].
  { intros H Ht. injection H as <-. destruct t as [|b2 t]; [destruct Ht|]. cbn [utail] in Ht. cbn [utf_tail] in Ht.
    destruct (btw 144 191 (bN b2)) eqn:E; [|destruct Ht]. apply utail_2 in Ht as [b3 [b4 [-> [H3 H4]]]]. apply btw_spec in E. apply mk4; lia. }
  destruct (btw 241 243 (bN b)) eqn:E5.
  { intros H Ht. injection H as <-. destruct t as [|b2 t]; [destruct Ht|]. cbn [utail] in Ht. cbn [utf_tail] in Ht.
    destruct (btw 128 191 (bN b2)) eqn:E; [|destruct Ht]. apply utail_2 in Ht as [b3 [b4 [-> [H3 H4]]]]. apply btw_spec in E, E5. apply mk4; lia. }
  destruct (N.eqb_spec (bN b) 244) as [E6|E6]; [|discriminate].
  intros H Ht. injection H as <-. destruct t as [|b2 t]; [destruct Ht|]. cbn [utail] in Ht. cbn [utf_tail] in Ht.
  destruct (btw 128 143 (bN b2)) eqn:E; [|destruct Ht]. apply utail_2 in Ht as [b3 [b4 [-> [H3 H4]]]]. apply btw_spec in E. apply mk4; lia.
Qed.

(* ---- utf_scan ---- *)
Lemma utf_scan_tail t : forall i l, utail i t ->
  utf_scan (Some i) (t ++ l) = match utf_scan None l with Some n => Some (length t + n)%nat | None => None end.
Proof.
  induction t as [|b t IH]; intros i l H; [destruct H|]. cbn [utail] in H. cbn [app utf_scan].
  destruct (utf_tail i (bN b)) as [[j|]|]; [|subst t|destruct H].
  - rewrite (IH j l H). destruct (utf_scan None l); reflexivity.
  - cbn [app length]. destruct (utf_scan None l); reflexivity.
Qed.
Lemma utf_scan_encode c l : scalar c ->
  utf_scan None (encode c ++ l) = match utf_scan None l with Some n => Some (length (encode c) + n)%nat | None => None end.
Proof.
  intros Hc. destruct (encode_cases c Hc) as [[H [-> E]]|[H [b [t [i [-> [Hb [Hi Ht]]]]]]]].
  - cbn [app utf_scan]. rewrite E. replace (c <? 128) with true by (symmetry; apply N.ltb_lt; exact H).
    destruct (utf_scan None l); reflexivity.
  - cbn [app utf_scan]. replace (bN b <? 128) with false by (symmetry; apply N.ltb_ge; exact Hb). rewrite Hi.
    rewrite (utf_scan_tail t i l Ht). destruct (utf_scan None l); reflexivity.
Qed.
Lemma utf8_scan l : utf8 l -> utf_scan None l = None.
Proof. induction 1 as [|c l Hc _ IH]; [reflexivity|]. rewrite utf_scan_encode, IH by exact Hc. reflexivity. Qed.

Lemma scan_tail_inv l : forall i, utf_scan (Some i) l = None -> exists t r, l = t ++ r /\ utail i t /\ utf_scan None r = None.
Proof.
  induction l as [|b l IH]; intros i H; [discriminate|]. cbn [utf_scan] in H.
  destruct (utf_tail i (bN b)) as [[j|]|] eqn:E; [| |discriminate].
  - destruct (utf_scan (Some j) l) eqn:E2; [discriminate|]. destruct (IH j E2) as [t [r [-> [Ht Hr]]]].
    exists (b :: t), r. split; [reflexivity|]. split; [|exact Hr]. cbn [utail]. rewrite E. exact Ht.
  - destruct (utf_scan None l) eqn:E2; [discriminate|]. exists [b], l. split; [reflexivity|]. split; [|exact E2].
    cbn [utail]. rewrite E. reflexivity.
Qed.
Lemma scan_utf8 l : utf_scan None l = None -> utf8 l.
Proof.
  enough (H : forall n l, (length l <= n)%nat -> utf_scan None l = None -> utf8 l) by (apply (H (length l)); lia).
  clear l. induction n as [|n IH]; intros [|b l] Hl H; try constructor; cbn [length] in Hl; [lia|].
  cbn [utf_scan] in H. destruct (N.ltb_spec (bN b) 128) as [Hb|Hb].
  - destruct (utf_scan None l) eqn:E; [discriminate|].
    change (b :: l) with ([b] ++ l). replace [b] with (encode (bN b)).
    + constructor; [split; lia|]. apply IH; [lia|exact E].
    + unfold encode. replace (bN b <? 128) with true by (symmetry; apply N.ltb_lt; exact Hb). rewrite byte_of_bN. reflexivity.
  - destruct (utf_start (bN b)) as [i|] eqn:Ei; [|discriminate].
    destruct (utf_scan (Some i) l) eqn:E; [discriminate|]. destruct (scan_tail_inv l i E) as [t [r [-> [Ht Hr]]]].
    destruct (utail_encode b i t Ei Ht) as [c [Hc [_ Ec]]].
    change (b :: t ++ r) with ((b :: t) ++ r). rewrite <- Ec. constructor; [exact Hc|]. apply IH; [|exact Hr].
    rewrite app_length in Hl. lia.
Qed.
Theorem utf_scan_utf8 l : utf_scan None l = None <-> utf8 l.
Proof. split; [apply scan_utf8|apply utf8_scan]. Qed.

(* ---- parameter values ---- *)
Lemma p_val_utail t : forall i l, utail i t ->
  p_val (VUtf i) (t ++ l) = (t ++ fst (p_val VPlain l), snd (p_val VPlain l)).
Proof.
  induction t as [|b t IH]; intros i l H; [destruct H|]. cbn [utail] in H. cbn [app p_val].
  destruct (utf_tail i (bN b)) as [[j|]|]; [|subst t|destruct H].
  - rewrite (IH j l H). reflexivity.
  - reflexivity.
Qed.
Lemma p_val_encode c l : scalar c -> ~ special c ->
  p_val VPlain (encode c ++ l) = (encode c ++ fst (p_val VPlain l), snd (p_val VPlain l)).
Proof.
  intros Hc Hs. unfold special in Hs. destruct (encode_cases c Hc) as [[H [-> E]]|[H [b [t [i [-> [Hb [Hi Ht]]]]]]]].
  - cbn [app p_val]. unfold is. rewrite E.
    replace (c =? 34) with false by (symmetry; apply N.eqb_neq; lia). replace (c =? 92) with false by (symmetry; apply N.eqb_neq; lia).
    replace (c =? 93) with false by (symmetry; apply N.eqb_neq; lia). replace (c <? 128) with true by (symmetry; apply N.ltb_lt; exact H).
    reflexivity.
  - cbn [app p_val]. unfold is.
    replace (bN b =? 34) with false by (symmetry; apply N.eqb_neq; lia). replace (bN b =? 92) with false by (symmetry; apply N.eqb_neq; lia).
    replace (bN b =? 93) with false by (symmetry; apply N.eqb_neq; lia). replace (bN b <? 128) with false by (symmetry; apply N.ltb_ge; exact Hb).
    rewrite Hi, (p_val_utail t i l Ht). reflexivity.
Qed.

Lemma utail_no92 t : forall i, utail i t -> Forall (fun b => is 92 b = false) t.
Proof.
  induction t as [|b t IH]; intros i H; [destruct H|]. cbn [utail] in H.
  destruct (utf_tail i (bN b)) as [o|] eqn:E; [|destruct H].
  constructor; [apply N.eqb_neq; apply utf_tail_ge in E; lia|]. destruct o as [j|]; [apply (IH j H)|subst; constructor].
Qed.
Lemma unesc_plain t : forall l, Forall (fun b => is 92 b = false) t -> unesc (t ++ l) = t ++ unesc l.
Proof. induction t as [|b t IH]; intros l H; [reflexivity|]. inversion H as [|? ? H1 H2]; subst. cbn [app unesc]. rewrite H1, IH by exact H2. reflexivity. Qed.
Lemma encode_no92 c : scalar c -> ~ special c -> Forall (fun b => is 92 b = false) (encode c).
Proof.
  intros Hc Hs. unfold special in Hs. destruct (encode_cases c Hc) as [[H [-> E]]|[H [b [t [i [-> [Hb [Hi Ht]]]]]]]].
  - constructor; [|constructor]. unfold is. rewrite E. apply N.eqb_neq. lia.
  - constructor; [apply N.eqb_neq; lia|]. exact (utail_no92 t i Ht).
Qed.

Lemma special_is b : special (bN b) -> (is 34 b || is 92 b || is 93 b)%bool = true.
Proof. unfold special, is. rewrite !orb_true_iff, !N.eqb_eq. tauto. Qed.

(* a value of the grammar is scanned completely and unescapes to its meaning *)
Lemma pval_scan raw v : pval raw v -> unesc raw = v /\ forall r, p_val VPlain (raw ++ """"%byte :: r) = (raw, VClose r).
Proof.
  induction 1 as [|b raw v Hb Hp [IH1 IH2]|c raw v Hc Hs Hp [IH1 IH2]].
  - split; [reflexivity|]. intros r. reflexivity.
  - split.
    + cbn [unesc]. change (is 92 "\") with true. cbn iota. rewrite IH1. reflexivity.
    + intros r. cbn [app p_val]. change (is 34 "\") with false. change (is 92 "\") with true. cbn iota.
      rewrite (special_is b Hb). rewrite IH2. reflexivity.
  - split.
    + rewrite unesc_plain, IH1 by (apply encode_no92; assumption). reflexivity.
    + intros r. rewrite <- app_assoc, p_val_encode, IH2 by assumption. reflexivity.
Qed.

Lemma p_val_tail_inv l : forall i raw r, p_val (VUtf i) l = (raw, VClose r) ->
  exists t raw' l', raw = t ++ raw' /\ l = t ++ l' /\ utail i t /\ p_val VPlain l' = (raw', VClose r).
Proof.
  induction l as [|b l IH]; intros i raw r H; [discriminate|]. cbn [p_val] in H.
  destruct (utf_tail i (bN b)) as [[j|]|] eqn:E; [| |discriminate].
  - injection H as <- H. destruct (IH j (fst (p_val (VUtf j) l)) r) as [t [raw' [l' [E1 [E2 [E3 E4]]]]]].
    { rewrite <- H. destruct (p_val (VUtf j) l); reflexivity. }
    exists (b :: t), raw', l'. rewrite E1, E2. split; [reflexivity|]. split; [reflexivity|]. split; [|exact E4]. cbn [utail]. rewrite E. exact E3.
  - injection H as <- H. exists [b], (fst (p_val VPlain l)), l. split; [reflexivity|]. split; [reflexivity|]. split.
    + cbn [utail]. rewrite E. reflexivity.
    + rewrite <- H. destruct (p_val VPlain l); reflexivity.
Qed.

Lemma is_eq n b : is n b = true -> n < 256 -> b = byte_of n.
Proof. intros H Hn. apply N.eqb_eq in H. rewrite <- H. symmetry. apply byte_of_bN. Qed.

(* and every scanned text is a value of the grammar *)
Lemma scan_pval l : forall raw r, p_val VPlain l = (raw, VClose r) -> l = raw ++ """"%byte :: r /\ pval raw (unesc raw).
Proof.
  enough (H : forall n l, (length l <= n)%nat -> forall raw r, p_val VPlain l = (raw, VClose r) -> l = raw ++ """"%byte :: r /\ pval raw (unesc raw))
    by (apply (H (length l)); lia).
  clear l. induction n as [|n IH]; intros [|b l] Hl raw r H; try discriminate; cbn [length] in Hl; [lia|].
  cbn [p_val] in H.
  destruct (is 34 b) eqn:E34.
  { injection H as <- <-. apply (is_eq 34) in E34; [|lia]. subst b. split; [reflexivity|constructor]. }
  destruct (is 92 b) eqn:E92.
  { apply (is_eq 92) in E92; [|lia]. change (byte_of 92) with "\"%byte in E92. subst b.
    injection H as <- H. destruct l as [|c l]; [discriminate|]. cbn [p_val] in *.
    destruct (is 34 c || is 92 c || is 93 c)%bool eqn:Es; [|discriminate].
    cbn [fst snd length] in *.
    destruct (IH l ltac:(lia) (fst (p_val VPlain l)) r) as [El Hp]; [rewrite <- H; destruct (p_val VPlain l); reflexivity|].
    split; [cbn [app]; do 2 f_equal; exact El|]. cbn [unesc]. change (is 92 "\") with true. cbn iota.
    constructor; [|exact Hp]. unfold special, is in *. rewrite !orb_true_iff, !N.eqb_eq in Es. tauto. }
  destruct (is 93 b) eqn:E93; [discriminate|].
  unfold is in *. apply N.eqb_neq in E34, E92, E93.
  destruct (N.ltb_spec (bN b) 128) as [Hb|Hb].
  { injection H as <- H. destruct (IH l ltac:(lia) (fst (p_val VPlain l)) r) as [El Hp]; [rewrite <- H; destruct (p_val VPlain l); reflexivity|].
    split; [cbn [app]; f_equal; exact El|].
    assert (Ee : encode (bN b) = [b]).
    { unfold encode. replace (bN b <? 128) with true by (symmetry; apply N.ltb_lt; exact Hb). rewrite byte_of_bN. reflexivity. }
    cbn [unesc]. unfold is. replace (bN b =? 92) with false by (symmetry; apply N.eqb_neq; exact E92).
    change (b :: fst (p_val VPlain l)) with ([b] ++ fst (p_val VPlain l)). change (b :: unesc (fst (p_val VPlain l))) with ([b] ++ unesc (fst (p_val VPlain l))).
    rewrite <- Ee. constructor; [split; lia|unfold special; lia|exact Hp]. }
  destruct (utf_start (bN b)) as [i|] eqn:Ei; [|discriminate].
  injection H as <- H.
  destruct (p_val_tail_inv l i (fst (p_val (VUtf i) l)) r) as [t [raw' [l' [E1 [E2 [E3 E4]]]]]].
  { rewrite <- H. destruct (p_val (VUtf i) l); reflexivity. }
  rewrite E1. assert (Hl' : (length l' <= n)%nat) by (rewrite E2, app_length in Hl; lia).
  destruct (IH l' Hl' raw' r E4) as [El Hp].
  split; [cbn [app]; rewrite E2 at 1; rewrite El, <- app_assoc; reflexivity|].
  destruct (utail_encode b i t Ei E3) as [c [Hc [Hge Ec]]].
  change (b :: t ++ raw') with ((b :: t) ++ raw'). rewrite <- Ec.
  assert (Hns : ~ special c) by (unfold special; lia).
  rewrite unesc_plain by (apply encode_no92; assumption). constructor; assumption.
Qed.
