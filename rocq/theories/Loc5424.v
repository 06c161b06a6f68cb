(* Where errors are reported: columns lie in the input, and the outcome of a rejected input depends
   only on the bytes up to and including the reported column. *)
From Verif Require Import Bytes GoMap GoTime CommonFacts M5424Def A5424 M5424 Spec5424 Ref5424a Ref5424b Ref5424c Grammar5424 Utf8 Ts5424 Gram5424.
Local Open Scope Z_scope.
Ltac Zify.zify_post_hook ::= idtac.

Definition LocAt (k : stage) (rest : bytes) : Prop := forall o p x e, k o p rest = PBad x e ->
  p <= perr_col e <= p + len rest /\
  (forall w b r r', rest = w ++ b :: r -> perr_col e = p + len w -> k o p (w ++ b :: r') = PBad x e).
Definition Loc (k : stage) : Prop := forall rest, LocAt k rest.

Lemma app_split (pre rest1 w : bytes) b r : pre ++ rest1 = w ++ b :: r -> len pre <= len w -> exists w1, w = pre ++ w1 /\ rest1 = w1 ++ b :: r.
Proof.
  revert w. induction pre as [|a pre IH]; intros w H Hl; [exists w; auto|].
  destruct w as [|c w]; [rewrite len_cons, len_nil in Hl; pose proof (len_nonneg pre); lia|]. cbn [app] in H. injection H as <- H.
  rewrite !len_cons in Hl. destruct (IH w H ltac:(lia)) as [w1 [-> ->]]. exists w1. auto.
Qed.
Lemma app_eq_len (a b c d : bytes) : a ++ b = c ++ d -> len a = len c -> a = c /\ b = d.
Proof.
  revert c. induction a as [|x a IH]; intros [|y c] H Hl; rewrite ?len_cons, ?len_nil in Hl; try (pose proof (len_nonneg a); lia); try (pose proof (len_nonneg c); lia); auto.
  cbn [app] in H. injection H as <- H. destruct (IH c H ltac:(lia)) as [-> ->]. auto.
Qed.

(* continuing with k after a prefix that was read whatever follows it *)
Lemma loc_next (k k' : stage) o o' p pre rest1 x e : LocAt k' rest1 ->
  (forall rest, k o p (pre ++ rest) = k' o' (p + len pre) rest) -> k o p (pre ++ rest1) = PBad x e ->
  p <= perr_col e <= p + len (pre ++ rest1) /\
  (forall w b r r', pre ++ rest1 = w ++ b :: r -> perr_col e = p + len w -> k o p (w ++ b :: r') = PBad x e).
Proof.
  intros HL Hk H. rewrite Hk in H. destruct (HL _ _ _ _ H) as [Hb Hl]. rewrite len_app. pose proof (len_nonneg pre). split; [lia|].
  intros w b r r' E Hc. destruct (app_split _ _ _ _ _ E) as [w1 [-> ->]]; [lia|]. rewrite len_app in Hc. rewrite <- app_assoc, Hk. apply (Hl w1 b r r'); [reflexivity|lia].
Qed.
(* the same when reading the prefix involved looking at the next byte *)
Lemma loc_next2 (k k' : stage) o o' p pre rest1 x e : LocAt k' rest1 ->
  (forall b r r', rest1 = b :: r -> k o p (pre ++ b :: r') = k' o' (p + len pre) (b :: r')) -> k' o' (p + len pre) rest1 = PBad x e ->
  p <= perr_col e <= p + len (pre ++ rest1) /\
  (forall w b r r', pre ++ rest1 = w ++ b :: r -> perr_col e = p + len w -> k o p (w ++ b :: r') = PBad x e).
Proof.
  intros HL Hk H. destruct (HL _ _ _ _ H) as [Hb Hl]. rewrite len_app. pose proof (len_nonneg pre). split; [lia|].
  intros w b r r' E Hc. destruct (app_split _ _ _ _ _ E) as [w1 [-> ->]]; [lia|]. rewrite len_app in Hc. rewrite <- app_assoc.
  destruct w1 as [|c w1]; cbn [app]; rewrite (Hk _ _ _ eq_refl); [apply (Hl [] b r r')|apply (Hl (c :: w1) b r r')]; try reflexivity; lia.
Qed.
(* stopping at a byte *)
Lemma loc_here (k : stage) o p pre rest1 x e : perr_col e = p + len pre ->
  (forall b r r', rest1 = b :: r -> k o p (pre ++ b :: r') = PBad x e) ->
  p <= perr_col e <= p + len (pre ++ rest1) /\
  (forall w b r r', pre ++ rest1 = w ++ b :: r -> perr_col e = p + len w -> k o p (w ++ b :: r') = PBad x e).
Proof.
  intros Hc H. rewrite len_app. pose proof (len_nonneg pre). pose proof (len_nonneg rest1). split; [lia|].
  intros w b r r' E Hw. destruct (app_eq_len _ _ _ _ E) as [-> ->]; [lia|]. eauto.
Qed.
(* stopping after the prefix has been read, whatever follows *)
Lemma loc_after (k : stage) o p pre rest1 x e : perr_col e = p + len pre ->
  (forall r, k o p (pre ++ r) = PBad x e) ->
  p <= perr_col e <= p + len (pre ++ rest1) /\
  (forall w b r r', pre ++ rest1 = w ++ b :: r -> perr_col e = p + len w -> k o p (w ++ b :: r') = PBad x e).
Proof. intros Hc H. apply loc_here; auto. Qed.

Lemma span_stop_eq P max w b r r' : span_max P max (w ++ b :: r) = (w, b :: r) -> span_max P max (w ++ b :: r') = (w, b :: r').
Proof.
  revert max. induction w as [|a w IH]; intros max H; cbn [app] in *.
  - destruct max; [reflexivity|]. cbn [span_max] in *. destruct (P (bN b)); [discriminate|reflexivity].
  - destruct max; [discriminate|]. cbn [span_max] in *. destruct (P (bN a)); [|discriminate]. injection H as H1 H2.
    specialize (IH max). rewrite IH; [reflexivity|]. destruct (span_max P max (w ++ b :: r)); cbn in *; congruence.
Qed.

Lemma loc_word f k : Loc k -> Loc (p_word f k).
Proof.
  intros Hk rest o p x e H. unfold p_word in H. destruct (span_max is_graph (N.to_nat (fmax f)) rest) as [w r] eqn:E.
  pose proof (span_parts _ _ _ _ _ E) as [-> _].
  assert (Hbad : PBad (Some o) (PErr (ferr f) (p + len w)) = PBad x e -> (w = [] \/ forall b r1, r = b :: r1 -> is 32 b = false) ->
    p <= perr_col e <= p + len (w ++ r) /\ (forall w0 b r0 r', w ++ r = w0 ++ b :: r0 -> perr_col e = p + len w0 -> p_word f k o p (w0 ++ b :: r') = PBad x e)).
  { intros Hx Hor. injection Hx as <- <-. apply loc_here; [reflexivity|]. intros b r1 r' ->. unfold p_word. rewrite (span_stop_eq _ _ _ _ _ r' E).
    destruct w as [|a w]; [reflexivity|]. destruct Hor as [Hor|Hor]; [discriminate|]. rewrite (Hor b r1 eq_refl). reflexivity. }
  destruct w as [|a w]; [apply Hbad; auto|]. destruct r as [|b r]; [apply Hbad; [exact H|right; discriminate]|].
  destruct (is 32 b) eqn:Eb; [|apply Hbad; [exact H|right; intros b' r1 E'; injection E' as <- <-; exact Eb]].
  rewrite (is_lit 32 b " "%byte Eb eq_refl) in *. clear Hbad Eb b. set (W := a :: w) in *.
  change (W ++ " "%byte :: r) with (W ++ [" "%byte] ++ r). rewrite app_assoc. apply loc_next with (k' := k) (o' := set_word f W o); [apply Hk| |].
  - intros rest. rewrite <- app_assoc. cbn [app]. unfold p_word. rewrite (span_stop_eq _ _ _ _ _ rest E). rewrite len_app. change (len [" "%byte]) with 1. rewrite Z.add_assoc. reflexivity.
  - rewrite <- app_assoc. cbn [app]. unfold p_word. rewrite E. exact H.
Qed.

Lemma utf_scan_loc w b r r' : forall u, utf_scan u (w ++ b :: r) = Some (length w) -> utf_scan u (w ++ b :: r') = Some (length w).
Proof.
  induction w as [|a w IH]; intros u H; cbn [app utf_scan length] in *.
  - destruct (match u with None => _ | Some i => utf_tail i (bN b) end) as [u'|]; [|reflexivity]. destruct (utf_scan u' r); discriminate.
  - destruct (match u with None => _ | Some i => utf_tail i (bN a) end) as [u'|]; [|discriminate]. destruct (utf_scan u' (w ++ b :: r)) eqn:E; [|discriminate].
    injection H as ->. rewrite (IH _ E). reflexivity.
Qed.
Lemma utf_scan_len l : forall u n, utf_scan u l = Some n -> (n <= length l)%nat.
Proof.
  induction l as [|a l IH]; intros u n H; cbn [utf_scan length] in *; [destruct u; [injection H as <-; lia|discriminate]|].
  destruct (match u with None => _ | Some i => utf_tail i (bN a) end) as [u'|]; [|injection H as <-; lia]. destruct (utf_scan u' l) eqn:E; [|discriminate].
  injection H as <-. apply IH in E. lia.
Qed.
Lemma loc_msg cm : Loc (p_msg cm).
Proof.
  intros rest o p x e H. destruct rest as [|a rest]; [discriminate|]. unfold p_msg in H. destruct cm; [|discriminate].
  destruct (strip_bom (a :: rest)) as [r|] eqn:Es; [|discriminate]. destruct (utf_scan None r) as [n|] eqn:Eu; [|discriminate].
  apply strip_bom_iff in Es. change BOM with bom in Es. pose proof (utf_scan_len _ _ _ Eu) as Hn. rewrite Es in *. clear a rest Es. injection H as <- <-.
  cbn [perr_col]. rewrite len_app. change (len bom) with 3. split; [unfold len; lia|].
  intros w b r0 r' E Hw. destruct (app_split _ _ _ _ _ E) as [w1 [-> ->]]; [change (len bom) with 3; lia|].
  rewrite len_app in Hw. change (len bom) with 3 in Hw. assert (Hn' : n = length w1) by (unfold len in Hw; lia). subst n.
  rewrite <- app_assoc. cbn [bom app]. unfold p_msg, strip_bom. change (is 239 "239" && is 187 "187" && is 191 "191") with true. cbv iota.
  rewrite (utf_scan_loc _ _ _ r' _ Eu). cbn [Nat.add firstn].
  rewrite !firstn_app, Nat.sub_diag, !firstn_O, !app_nil_r. reflexivity.
Qed.

(* the small stages: name the bytes read so far *)
Ltac one := rewrite ?len_app, ?len_cons, ?len_nil; cbn [perr_col]; try lia.

Lemma loc_version k : Loc k -> Loc (p_version k).
Proof.
  intros Hk rest o p x e H. unfold p_version in H.
  destruct rest as [|d1 r1]; [injection H as <- <-; apply (loc_here (p_version k) o p [] []); [one|discriminate]|].
  destruct (btw 49 57 (bN d1)) eqn:E1.
  2: { injection H as <- <-. apply (loc_here (p_version k) o p [] (d1 :: r1)); [one|]. intros b r r' E. injection E as <- <-. unfold p_version. cbn [app]. rewrite E1. reflexivity. }
  destruct r1 as [|d2 r2]; [injection H as <- <-; apply (loc_here (p_version k) o p [d1] []); [one|discriminate]|].
  destruct (is 32 d2) eqn:E2.
  { apply (loc_next (p_version k) k o (set_ver (dv d1) o) p [d1; d2] r2); [apply Hk| |].
    - intros rest. unfold p_version. cbn [app]. rewrite E1, E2. f_equal.
    - unfold p_version. cbn [app]. rewrite E1, E2. exact H. }
  destruct (is_dig (bN d2)) eqn:E3.
  2: { injection H as <- <-. apply (loc_here (p_version k) o p [d1] (d2 :: r2)); [one|]. intros b r r' E. injection E as <- <-. unfold p_version. cbn [app]. rewrite E1, E2, E3. reflexivity. }
  destruct r2 as [|d3 r3]; [injection H as <- <-; apply (loc_here (p_version k) o p [d1; d2] []); [one|discriminate]|].
  destruct (is 32 d3) eqn:E4.
  { apply (loc_next (p_version k) k o (set_ver (10 * dv d1 + dv d2) o) p [d1; d2; d3] r3); [apply Hk| |].
    - intros rest. unfold p_version. cbn [app]. rewrite E1, E2, E3, E4. f_equal.
    - unfold p_version. cbn [app]. rewrite E1, E2, E3, E4. exact H. }
  destruct (is_dig (bN d3)) eqn:E5.
  2: { injection H as <- <-. apply (loc_here (p_version k) o p [d1; d2] (d3 :: r3)); [one|]. intros b r r' E. injection E as <- <-. unfold p_version. cbn [app]. rewrite E1, E2, E3, E4, E5. reflexivity. }
  destruct r3 as [|d4 r4]; [injection H as <- <-; apply (loc_here (p_version k) o p [d1; d2; d3] []); [one|discriminate]|].
  destruct (is 32 d4) eqn:E6.
  { apply (loc_next (p_version k) k o (set_ver (100 * dv d1 + 10 * dv d2 + dv d3) o) p [d1; d2; d3; d4] r4); [apply Hk| |].
    - intros rest. unfold p_version. cbn [app]. rewrite E1, E2, E3, E4, E5, E6. f_equal.
    - unfold p_version. cbn [app]. rewrite E1, E2, E3, E4, E5, E6. exact H. }
  injection H as <- <-. apply (loc_here (p_version k) o p [d1; d2; d3] (d4 :: r4)); [one|]. intros b r r' E. injection E as <- <-. unfold p_version. cbn [app]. rewrite E1, E2, E3, E4, E5, E6. reflexivity.
Qed.

Lemma ts_scan_bad l : forall n w, ts_scan n l = (w, TSBad) -> exists r, l = w ++ r /\ forall b r1 r', r = b :: r1 -> ts_scan n (w ++ b :: r') = (w, TSBad).
Proof.
  induction l as [|a l IH]; intros n w H; cbn [ts_scan] in H.
  - injection H as <-. exists []. split; [reflexivity|discriminate].
  - destruct (ts_next n (bN a)) as [m|] eqn:E.
    + destruct (m =? 578)%N eqn:Em; [discriminate|]. injection H as <- H. destruct (IH m (fst (ts_scan m l))) as [r [H1 H2]]; [rewrite <- H; apply surjective_pairing|].
      exists r. split; [cbn [app]; f_equal; exact H1|]. intros b r1 r' Er. cbn [app ts_scan]. rewrite E, Em. rewrite (H2 b r1 r' Er). reflexivity.
    + injection H as <-. exists (a :: l). split; [reflexivity|]. intros b r1 r' Er. injection Er as <- <-. cbn [app ts_scan]. rewrite E. reflexivity.
Qed.
Lemma ts_scan_done l n w r : ts_scan n l = (w, TSDone r) -> l = w ++ r /\ forall r', ts_scan n (w ++ r') = (w, TSDone r').
Proof.
  intros H. apply ts_scan_run in H as [-> [H1 H2]]. split; [reflexivity|]. intros r'. apply ts_scan_run. auto.
Qed.

Lemma loc_ts k : Loc k -> Loc (p_ts k).
Proof.
  intros Hk rest o p x e H. unfold p_ts in H.
  destruct rest as [|b r]; [injection H as <- <-; apply (loc_here (p_ts k) o p [] []); [one|discriminate]|].
  destruct (is 45 b) eqn:E1.
  { destruct r as [|c r]; [injection H as <- <-; apply (loc_here (p_ts k) o p [b] []); [one|discriminate]|]. destruct (is 32 c) eqn:E2.
    - apply (loc_next (p_ts k) k o o p [b; c] r); [apply Hk| |]; unfold p_ts; cbn [app]; rewrite E1, E2; [reflexivity|exact H].
    - injection H as <- <-. apply (loc_here (p_ts k) o p [b] (c :: r)); [one|]. intros b0 r0 r' E. injection E as <- <-. unfold p_ts. cbn [app]. rewrite E1, E2. reflexivity. }
  destruct (is_dig (bN b)) eqn:E3.
  2: { injection H as <- <-. apply (loc_here (p_ts k) o p [] (b :: r)); [one|]. intros b0 r0 r' E. injection E as <- <-. unfold p_ts. cbn [app]. rewrite E1, E3. reflexivity. }
  destruct (ts_scan 554 r) as [w en] eqn:E4. destruct en as [r1|].
  - apply ts_scan_done in E4 as [-> E4]. destruct (parse_rfc3339 (b :: w)) as [t|] eqn:E5.
    + destruct r1 as [|c r2].
      { injection H as <- <-. apply (loc_here (p_ts k) o p (b :: w) []); [reflexivity|discriminate]. }
      destruct (is 32 c) eqn:E6.
      * pose proof (fun rest => E4 (c :: rest)) as E4'. change (b :: w ++ c :: r2) with ((b :: w) ++ [c] ++ r2). rewrite app_assoc.
        apply loc_next with (k' := k) (o' := set_ts t o); [apply Hk| |]; rewrite <- ?app_assoc.
        -- intros rest. rewrite <- app_assoc. cbn [app]. unfold p_ts. rewrite E1, E3, E4', E5, E6. replace (p + len (b :: w ++ [c])) with (p + len (b :: w) + 1) by (rewrite !len_cons, len_app, len_cons, len_nil; lia). reflexivity.
        -- cbn [app]. unfold p_ts. rewrite E1, E3, E4', E5, E6. exact H.
      * injection H as <- <-. apply (loc_here (p_ts k) o p (b :: w) (c :: r2)); [reflexivity|]. intros b0 r0 r' E. injection E as <- <-. cbn [app]. unfold p_ts. rewrite E1, E3, E4, E5, E6. reflexivity.
    + injection H as <- <-. apply (loc_after (p_ts k) o p (b :: w) r1); [reflexivity|]. intros r'. cbn [app]. unfold p_ts. rewrite E1, E3, E4, E5. reflexivity.
  - apply ts_scan_bad in E4 as [r1 [-> E4]]. injection H as <- <-. apply (loc_here (p_ts k) o p (b :: w) r1); [reflexivity|].
    intros b0 r0 r' E. cbn [app]. unfold p_ts. rewrite E1, E3, (E4 b0 r0 r' E). reflexivity.
Qed.

Lemma p_val_bad l : forall m w k, p_val m l = (w, VBad k) -> exists r, l = w ++ r /\ forall b r1 r', r = b :: r1 -> p_val m (w ++ b :: r') = (w, VBad k).
Proof.
  induction l as [|a l IH]; intros m w k H; cbn [p_val] in H.
  - injection H as <- <-. exists []. split; [reflexivity|discriminate].
  - assert (Hgo : forall m', (a :: fst (p_val m' l), snd (p_val m' l)) = (w, VBad k) ->
        (forall l', p_val m (a :: l') = (a :: fst (p_val m' l'), snd (p_val m' l'))) ->
        exists r, a :: l = w ++ r /\ forall b r1 r', r = b :: r1 -> p_val m (w ++ b :: r') = (w, VBad k)).
    { intros m' Hm Hs. injection Hm as <- Hm. destruct (IH m' (fst (p_val m' l)) k) as [r [H1 H2]]; [rewrite <- Hm; apply surjective_pairing|].
      exists r. split; [cbn [app]; f_equal; exact H1|]. intros b r1 r' Er. cbn [app]. rewrite Hs, (H2 b r1 r' Er). reflexivity. }
    assert (Hst : forall kk, ([], VBad kk) = (w, VBad k) -> (forall l', p_val m (a :: l') = ([], VBad kk)) ->
        exists r, a :: l = w ++ r /\ forall b r1 r', r = b :: r1 -> p_val m (w ++ b :: r') = (w, VBad k)).
    { intros kk Hm Hs. injection Hm as <- <-. exists (a :: l). split; [reflexivity|]. intros b r1 r' Er. injection Er as <- <-. apply Hs. }
    destruct m as [| |i].
    + destruct (is 34 a) eqn:E1; [discriminate|].
      destruct (is 92 a) eqn:E2; [apply (Hgo VEsc H); intros l'; cbn [p_val]; rewrite E1, E2; reflexivity|].
      destruct (is 93 a) eqn:E3; [apply (Hst _ H); intros l'; cbn [p_val]; rewrite E1, E2, E3; reflexivity|].
      destruct (bN a <? 128)%N eqn:E4; [apply (Hgo VPlain H); intros l'; cbn [p_val]; rewrite E1, E2, E3, E4; reflexivity|].
      destruct (utf_start (bN a)) as [i|] eqn:E5; [apply (Hgo (VUtf i) H)|apply (Hst _ H)]; intros l'; cbn [p_val]; rewrite E1, E2, E3, E4, E5; reflexivity.
    + destruct (is 34 a || is 92 a || is 93 a) eqn:E1; [apply (Hgo VPlain H)|apply (Hst _ H)]; intros l'; cbn [p_val]; rewrite E1; reflexivity.
    + destruct (utf_tail i (bN a)) as [[j|]|] eqn:E1; [apply (Hgo (VUtf j) H)|apply (Hgo VPlain H)|apply (Hst _ H)]; intros l'; cbn [p_val]; rewrite E1; reflexivity.
Qed.
Lemma p_val_done l w r : p_val VPlain l = (w, VClose r) -> exists q, l = w ++ q :: r /\ is 34 q = true /\ forall r', p_val VPlain (w ++ q :: r') = (w, VClose r').
Proof.
  intros H. apply scan_pval in H as [-> Hpv]. exists """"%byte. split; [reflexivity|]. split; [reflexivity|]. intros r'. apply (pval_scan _ _ Hpv).
Qed.

(* p_elems as a stage, with any sufficient fuel *)
Lemma elems_fuel cm f1 : forall f2 md o p rest, (length rest < f1)%nat -> (length rest < f2)%nat -> p_elems f1 cm md o p rest = p_elems f2 cm md o p rest.
Proof.
  induction f1 as [|f1 IH]; intros [|f2] md o p rest H1 H2; try lia. cbn [p_elems].
  assert (HC : forall id o p r, (length r <= f1)%nat -> (length r <= f2)%nat -> 
     match r with [] => PGood o | b :: r' => if is 32 b then p_msg cm o (p + 1) r' else if is 91 b then p_elems f1 cm (MElem (Some id)) o (p + 1) r' else PBad (Some o) (PErr EStructuredData p) end =
     match r with [] => PGood o | b :: r' => if is 32 b then p_msg cm o (p + 1) r' else if is 91 b then p_elems f2 cm (MElem (Some id)) o (p + 1) r' else PBad (Some o) (PErr EStructuredData p) end).
  { intros id o1 p1 [|b r] Hr1 Hr2; [reflexivity|]. cbn [length] in *. rewrite (IH f2) by lia. reflexivity. }
  destruct md as [cur|id cp].
  - destruct (span_max is_sdc 32 rest) as [id r] eqn:E. apply span_parts in E as [-> _]. rewrite app_length in *. destruct id as [|a id]; [reflexivity|].
    destruct (mget (sd_of o) (a :: id)); [reflexivity|]. destruct r as [|b r]; [reflexivity|]. cbn [length] in *. rewrite (IH f2) by lia. destruct (is 32 b); [reflexivity|].
    destruct (is 93 b); [|reflexivity]. apply HC; lia.
  - destruct (span_max is_sdc 32 rest) as [nm r] eqn:E. apply span_parts in E as [-> _]. rewrite app_length in *. destruct nm as [|a nm]; [reflexivity|].
    destruct r as [|c r]; [reflexivity|]. destruct (is 61 c); [|reflexivity]. destruct r as [|q r]; [reflexivity|]. destruct (is 34 q); [|reflexivity].
    destruct (p_val VPlain r) as [raw ve] eqn:Ev. destruct ve as [r3|kk]; [|reflexivity]. apply p_val_done in Ev as [q' [-> _]]. cbn [length] in H1, H2. rewrite app_length in H1, H2. cbn [length] in *.
    destruct r3 as [|b r4]; [reflexivity|]. cbn [length] in *. rewrite (IH f2) by lia. destruct (is 32 b); [reflexivity|].
    destruct (is 93 b); [|reflexivity]. apply HC; lia.
Qed.
Definition el (cm : bool) (md : sdmode) : stage := fun o p rest => p_elems (S (length rest)) cm md o p rest.
Definition cl (cm : bool) (id : bytes) : stage := fun o p r =>
  match r with
  | [] => PGood o
  | b :: r' => if is 32 b then p_msg cm o (p + 1) r' else if is 91 b then el cm (MElem (Some id)) o (p + 1) r' else PBad (Some o) (PErr EStructuredData p)
  end.
Lemma cl_eq cm id fuel o p r : (length r <= fuel)%nat ->
  match r with [] => PGood o | b :: r' => if is 32 b then p_msg cm o (p + 1) r' else if is 91 b then p_elems fuel cm (MElem (Some id)) o (p + 1) r' else PBad (Some o) (PErr EStructuredData p) end = cl cm id o p r.
Proof. intros H. destruct r as [|b r]; [reflexivity|]. cbn [length cl] in *. unfold el. rewrite (elems_fuel cm fuel (S (length r))) by lia. reflexivity. Qed.
Lemma el_elem cm cur o p rest : el cm (MElem cur) o p rest =
  (let '(id, r) := span_max is_sdc 32 rest in
   match id with
   | [] => PBad (Some (del_elem cur o)) (PErr ESdID p)
   | _ => match mget (sd_of o) id with
          | Some _ => PBad (Some o) (PErr ESdIDDuplicated (p + len id))
          | None => match r with
                    | b :: r' => if is 32 b then el cm (MParam id None) (add_elem id o) (p + len id + 1) r'
                                 else if is 93 b then cl cm id (add_elem id o) (p + len id + 1) r'
                                 else PBad (Some o) (PErr ESdID (p + len id))
                    | [] => PBad (Some o) (PErr ESdID (p + len id))
                    end
          end
   end).
Proof.
  unfold el at 1. cbn [p_elems]. destruct (span_max is_sdc 32 rest) as [id r] eqn:E. apply span_parts in E as [-> _]. destruct id as [|a id]; [reflexivity|].
  destruct (mget (sd_of o) (a :: id)); [reflexivity|]. destruct r as [|b r]; [reflexivity|]. rewrite !app_length. cbn [length].
  rewrite cl_eq by lia. unfold el. rewrite (elems_fuel cm (S (length id + S (length r))) (S (length r))) by lia. reflexivity.
Qed.
Definition pv (cm : bool) (id : bytes) (cp : option bytes) (nm : bytes) : stage := fun o p r =>
  match r with
  | e :: r1 =>
     if is 61 e then
       match r1 with
       | q :: r2 =>
         if is 34 q then
           let '(raw, e) := p_val VPlain r2 in
           let p2 := p + 2 + len raw in
           match e with
           | VClose r3 =>
               let o' := put_param id nm (unesc raw) o in
               match r3 with
               | b :: r4 => if is 32 b then el cm (MParam id (Some nm)) o' (p2 + 2) r4
                            else if is 93 b then cl cm id o' (p2 + 2) r4
                            else PBad (Some (del_param id (Some nm) o')) (PErr ESdParam (p2 + 1))
               | [] => PBad (Some (del_param id (Some nm) o')) (PErr ESdParam (p2 + 1))
               end
           | VBad EEscape => PBad (Some o) (PErr EEscape p2)
           | VBad _ => PBad (Some (del_param id (Some nm) o)) (PErr ESdParam p2)
           end
         else PBad (Some (del_param id (Some nm) o)) (PErr ESdParam (p + 1))
       | [] => PBad (Some (del_param id (Some nm) o)) (PErr ESdParam (p + 1))
       end
     else PBad (Some (del_param id cp o)) (PErr ESdParam p)
  | [] => PBad (Some (del_param id cp o)) (PErr ESdParam p)
  end.
Lemma el_param cm id cp o p rest : el cm (MParam id cp) o p rest =
  (let '(nm, r) := span_max is_sdc 32 rest in
   match nm with [] => PBad (Some (del_param id cp o)) (PErr ESdParam (p + len nm)) | _ :: _ => pv cm id cp nm o (p + len nm) r end).
Proof.
  unfold el at 1. cbn [p_elems]. destruct (span_max is_sdc 32 rest) as [nm r] eqn:E. apply span_parts in E as [-> _]. destruct nm as [|a nm]; [reflexivity|]. unfold pv.
  destruct r as [|c r]; [reflexivity|]. destruct (is 61 c); [|reflexivity]. destruct r as [|q r]; [reflexivity|]. destruct (is 34 q); [|reflexivity].
  destruct (p_val VPlain r) as [raw ve] eqn:Ev. destruct ve as [r3|kk]; [|reflexivity]. apply p_val_done in Ev as [q' [-> _]].
  destruct r3 as [|b r4]; [reflexivity|]. rewrite !app_length. cbn [length]. rewrite app_length. cbn [length].
  rewrite cl_eq by lia. unfold el. rewrite (elems_fuel cm (S (length nm + S (S (length raw + S (S (length r4)))))) (S (length r4))) by lia. reflexivity.
Qed.

Lemma loc_pv cm id cp nm rest : (forall md r, (length r < length rest)%nat -> LocAt (el cm md) r) -> (forall id r, (length r < length rest)%nat -> LocAt (cl cm id) r) -> LocAt (pv cm id cp nm) rest.
Proof.
  intros He Hc o p x e H.
  destruct rest as [|c r]; [injection H as <- <-; apply (loc_here (pv cm id cp nm) o p [] []); [one|discriminate]|]. cbn [pv] in H.
  destruct (is 61 c) eqn:E1.
  2: { injection H as <- <-. apply (loc_here (pv cm id cp nm) o p [] (c :: r)); [one|]. intros b0 r0 r' E. injection E as <- <-. cbn [app pv]. rewrite E1. reflexivity. }
  destruct r as [|q r]; [injection H as <- <-; apply (loc_here (pv cm id cp nm) o p [c] []); [one|discriminate]|].
  destruct (is 34 q) eqn:E2.
  2: { injection H as <- <-. apply (loc_here (pv cm id cp nm) o p [c] (q :: r)); [one|]. intros b0 r0 r' E. injection E as <- <-. cbn [app pv]. rewrite E1, E2. reflexivity. }
  destruct (p_val VPlain r) as [raw ve] eqn:Ev. cbv zeta in H.
  assert (Hlen : p + 2 + len raw = p + len (c :: q :: raw)) by (rewrite !len_cons; lia).
  destruct ve as [r3|k].
  - apply p_val_done in Ev as [q' [-> [Eq Ev]]]. set (o' := put_param id nm (unesc raw) o) in *.
    assert (Hlen1 : p + 2 + len raw + 1 = p + len (c :: q :: raw ++ [q'])) by (rewrite !len_cons, len_app, len_cons, len_nil; lia).
    destruct r3 as [|b r4].
    { injection H as <- <-. change (c :: q :: raw ++ [q']) with ((c :: q :: raw ++ [q'])). rewrite <- (app_nil_r (c :: q :: raw ++ [q'])).
      apply (loc_here (pv cm id cp nm) o p (c :: q :: raw ++ [q']) []); [exact Hlen1|discriminate]. }
    assert (Hlen2 : p + 2 + len raw + 2 = p + len (c :: q :: raw ++ [q'; b])) by (rewrite !len_cons, len_app, !len_cons, len_nil; lia).
    cbn [length] in He, Hc. rewrite app_length in He, Hc. cbn [length] in He, Hc.
    replace (c :: q :: raw ++ q' :: b :: r4) with ((c :: q :: raw ++ [q'; b]) ++ r4) by (cbn [app]; rewrite <- app_assoc; reflexivity).
    assert (Hst : forall r, pv cm id cp nm o p ((c :: q :: raw ++ [q'; b]) ++ r) =
       if is 32 b then el cm (MParam id (Some nm)) o' (p + len (c :: q :: raw ++ [q'; b])) r else if is 93 b then cl cm id o' (p + len (c :: q :: raw ++ [q'; b])) r
       else PBad (Some (del_param id (Some nm) o')) (PErr ESdParam (p + 2 + len raw + 1))).
    { intros r. cbn [app]. rewrite <- app_assoc. cbn [app pv]. rewrite E1, E2, Ev. cbv zeta. rewrite <- Hlen2. reflexivity. }
    destruct (is 32 b) eqn:E3; [|destruct (is 93 b) eqn:E4].
    + apply (loc_next (pv cm id cp nm) (el cm (MParam id (Some nm))) o o'); [apply He; lia|exact Hst|]. rewrite Hst, <- Hlen2. exact H.
    + apply (loc_next (pv cm id cp nm) (cl cm id) o o'); [apply Hc; lia|exact Hst|]. rewrite Hst, <- Hlen2. exact H.
    + injection H as <- <-. replace ((c :: q :: raw ++ [q'; b]) ++ r4) with ((c :: q :: raw ++ [q']) ++ b :: r4) by (cbn [app]; rewrite <- !app_assoc; reflexivity).
      apply (loc_here (pv cm id cp nm) o p (c :: q :: raw ++ [q'])); [exact Hlen1|]. intros b0 r0 r' E. injection E as <- <-.
      etransitivity; [|apply (Hst r')]. cbn [app]. rewrite <- !app_assoc. reflexivity.
  - apply p_val_bad in Ev as [r3 [-> Ev]]. change (c :: q :: raw ++ r3) with ((c :: q :: raw) ++ r3).
    destruct k; injection H as <- <-; (apply (loc_here (pv cm id cp nm) o p (c :: q :: raw) r3); [exact Hlen|]); intros b0 r0 r' E; cbn [app pv]; rewrite E1, E2, (Ev b0 r0 r' E); reflexivity.
Qed.

Lemma loc_el_cl cm n : (forall md rest, (length rest <= n)%nat -> LocAt (el cm md) rest) /\ (forall id rest, (length rest <= n)%nat -> LocAt (cl cm id) rest).
Proof.
  induction n as [|n [IHe IHc]].
  - split; intros ? rest Hl; destruct rest; cbn [length] in Hl; try lia; intros o p x e H; [|discriminate].
    destruct md; (rewrite el_elem in H || rewrite el_param in H); cbn in H; injection H as <- <-; (split; [unfold len; cbn; lia|]); intros [|? ?] ? ? ?; discriminate.
  - assert (Hcl : forall id rest, (length rest <= S n)%nat -> LocAt (cl cm id) rest).
    { intros id rest Hl o p x e H. destruct rest as [|b r]; [discriminate|]. cbn [cl length] in *. destruct (is 32 b) eqn:E1.
      - apply (loc_next (cl cm id) (p_msg cm) o o p [b] r); [apply loc_msg| |]; unfold cl; cbn [app]; rewrite E1; [reflexivity|exact H].
      - destruct (is 91 b) eqn:E2.
        + apply (loc_next (cl cm id) (el cm (MElem (Some id))) o o p [b] r); [apply IHe; lia| |]; change (len [b]) with 1; unfold cl; cbn [app]; rewrite E1, E2; [reflexivity|exact H].
        + injection H as <- <-. apply (loc_here (cl cm id) o p [] (b :: r)); [one|]. intros b0 r0 r' E. injection E as <- <-. unfold cl. cbn [app]. rewrite E1, E2. reflexivity. }
    split; [|exact Hcl]. intros [cur|id cp] rest Hl o p x e H.
    + rewrite el_elem in H. destruct (span_max is_sdc 32 rest) as [id r] eqn:E. pose proof (span_parts _ _ _ _ _ E) as [-> _].
      destruct id as [|a id].
      { injection H as <- <-. apply (loc_here (el cm (MElem cur)) o p [] r); [one|]. intros b r1 r' ->. rewrite el_elem, (span_stop_eq _ _ _ _ _ r' E). reflexivity. }
      set (ID := a :: id) in *. destruct (mget (sd_of o) ID) eqn:Em.
      { injection H as <- <-. apply (loc_here (el cm (MElem cur)) o p ID r); [one|]. intros b r1 r' ->. rewrite el_elem, (span_stop_eq _ _ _ _ _ r' E). unfold ID at 1. cbv iota. fold ID. rewrite Em. reflexivity. }
      destruct r as [|b r]; [injection H as <- <-; apply (loc_here (el cm (MElem cur)) o p ID []); [one|discriminate]|].
      assert (Hl' : (length r <= n)%nat). { rewrite app_length in Hl. unfold ID in Hl. cbn [length] in Hl. lia. }
      change (ID ++ b :: r) with (ID ++ [b] ++ r). destruct (is 32 b) eqn:E1; [|destruct (is 93 b) eqn:E2].
      * rewrite app_assoc. apply (loc_next (el cm (MElem cur)) (el cm (MParam ID None)) o (add_elem ID o)); [apply IHe; exact Hl'| |]; intros; rewrite <- app_assoc; cbn [app];
          rewrite el_elem, (span_stop_eq _ _ _ _ _ _ E); unfold ID at 1; cbv iota; fold ID; rewrite Em, E1; [rewrite len_app; change (len [b]) with 1; rewrite Z.add_assoc; reflexivity|exact H].
      * rewrite app_assoc. apply (loc_next (el cm (MElem cur)) (cl cm ID) o (add_elem ID o)); [apply IHc; exact Hl'| |]; intros; rewrite <- app_assoc; cbn [app];
          rewrite el_elem, (span_stop_eq _ _ _ _ _ _ E); unfold ID at 1; cbv iota; fold ID; rewrite Em, E1, E2; [rewrite len_app; change (len [b]) with 1; rewrite Z.add_assoc; reflexivity|exact H].
      * injection H as <- <-. apply (loc_here (el cm (MElem cur)) o p ID (b :: r)); [one|]. intros b0 r0 r' E'. injection E' as <- <-.
        rewrite el_elem, (span_stop_eq _ _ _ _ _ _ E); unfold ID at 1; cbv iota; fold ID; rewrite Em, E1, E2. reflexivity.
    + rewrite el_param in H. destruct (span_max is_sdc 32 rest) as [nm r] eqn:E. pose proof (span_parts _ _ _ _ _ E) as [-> _].
      destruct nm as [|a nm].
      { injection H as <- <-. apply (loc_here (el cm (MParam id cp)) o p [] r); [one|]. intros b r1 r' ->. rewrite el_param, (span_stop_eq _ _ _ _ _ r' E). reflexivity. }
      apply (loc_next2 (el cm (MParam id cp)) (pv cm id cp (a :: nm)) o o); [| |exact H].
      * rewrite app_length in Hl. cbn [length] in Hl. apply loc_pv; intros ? r' Hr'; [apply IHe|apply IHc]; lia.
      * intros b r1 r' ->. rewrite el_param, (span_stop_eq _ _ _ _ _ r' E). reflexivity.
Qed.
Lemma loc_el cm md : Loc (el cm md).
Proof. intros rest. apply (proj1 (loc_el_cl cm (length rest))). lia. Qed.

Lemma loc_sd cm : Loc (p_sd cm).
Proof.
  intros rest o p x e H. destruct rest as [|b r]; [injection H as <- <-; apply (loc_here (p_sd cm) o p [] []); [one|discriminate]|].
  unfold p_sd in H. destruct (is 45 b) eqn:E1.
  - destruct r as [|c r]; [discriminate|]. destruct (is 32 c) eqn:E2.
    + apply (loc_next (p_sd cm) (p_msg cm) o o p [b; c] r); [apply loc_msg| |]; unfold p_sd; cbn [app]; rewrite E1, E2; [reflexivity|exact H].
    + injection H as <- <-. apply (loc_here (p_sd cm) o p [b] (c :: r)); [one|]. intros b0 r0 r' E. injection E as <- <-. unfold p_sd. cbn [app]. rewrite E1, E2. reflexivity.
  - destruct (is 91 b) eqn:E2.
    + apply (loc_next (p_sd cm) (el cm (MElem None)) o (set_o_sd (Some []) o) p [b] r); [apply loc_el| |]; change (len [b]) with 1; unfold p_sd, el; cbn [app]; rewrite E1, E2; [intros rest; reflexivity|exact H].
    + injection H as <- <-. apply (loc_here (p_sd cm) o p [] (b :: r)); [one|]. intros b0 r0 r' E. injection E as <- <-. unfold p_sd. cbn [app]. rewrite E1, E2. reflexivity.
Qed.
Lemma loc_header cm : Loc (p_header cm).
Proof. unfold p_header. apply loc_version, loc_ts, loc_word, loc_word, loc_word, loc_word, loc_sd. Qed.

Definition pri_stage (k : stage) : stage := fun _ p data => if p =? 0 then p_pri k data else PBad None (PErr EPri p).
Lemma loc_pri k : Loc k -> Loc (pri_stage k).
Proof.
  intros Hk rest o p x e H. unfold pri_stage in *. destruct (Z.eqb_spec p 0) as [->|Hp].
  2: { injection H as <- <-. cbn [perr_col]. pose proof (len_nonneg rest). split; [lia|]. intros. reflexivity. }
  set (K := fun (_ : msg5424) (_ : Z) d => p_pri k d).
  cut (0 <= perr_col e <= 0 + len rest /\ forall w b r r', rest = w ++ b :: r -> perr_col e = 0 + len w -> K o 0 (w ++ b :: r') = PBad x e); [auto|].
  destruct rest as [|b r]; [injection H as <- <-; apply (loc_here K o 0 [] []); [one|discriminate]|].
  unfold p_pri in H. destruct (is 60 b) eqn:E1.
  2: { injection H as <- <-. apply (loc_here K o 0 [] (b :: r)); [one|]. intros b0 r0 r' E. injection E as <- <-. unfold K, p_pri. cbn [app]. rewrite E1. reflexivity. }
  (* the digits read, and the byte after them *)
  assert (Hpv : match prival r with
    | None => forall c r1 r', r = c :: r1 -> prival (c :: r') = None
    | Some (v, n, r1) => exists ds, r = ds ++ r1 /\ len ds = n /\ forall c r2 r', r1 = c :: r2 -> prival (ds ++ c :: r') = Some (v, n, c :: r')
    end).
  { unfold prival. destruct r as [|d1 r1]; [discriminate|]. destruct (is 48 d1) eqn:D1.
    { exists [d1]. split; [reflexivity|]. split; [reflexivity|]. intros c r2 r' ->. cbn [app]. rewrite D1. reflexivity. }
    destruct (btw 49 57 (bN d1)) eqn:D2; [|intros c r1' r' E; injection E as <- <-; rewrite D1, D2; reflexivity].
    destruct r1 as [|d2 r2]; [exists [d1]; split; [reflexivity|]; split; [reflexivity|discriminate]|].
    destruct (is_dig (bN d2)) eqn:D3; [|exists [d1]; split; [reflexivity|]; split; [reflexivity|]; intros c r2' r' E; injection E as <- <-; cbn [app]; rewrite D1, D2, D3; reflexivity].
    destruct r2 as [|d3 r3]; [exists [d1; d2]; split; [reflexivity|]; split; [reflexivity|discriminate]|].
    destruct (is_dig (bN d3) && (100 * dv d1 + 10 * dv d2 + dv d3 <=? 191)) eqn:D4.
    - exists [d1; d2; d3]. split; [reflexivity|]. split; [reflexivity|]. intros c r2' r' ->. cbn [app]. rewrite D1, D2, D3, D4. reflexivity.
    - exists [d1; d2]. split; [reflexivity|]. split; [reflexivity|]. intros c r2' r' E. injection E as <- <-. cbn [app]. rewrite D1, D2, D3, D4. reflexivity. }
  destruct (prival r) as [[[v n] r1]|] eqn:Ep.
  2: { injection H as <- <-. apply (loc_here K o 0 [b] r); [one|]. intros b0 r0 r' ->. unfold K, p_pri. cbn [app]. rewrite E1, (Hpv b0 r0 r' eq_refl). reflexivity. }
  destruct Hpv as [ds [-> [Hn Hpv]]]. change (b :: ds ++ r1) with ((b :: ds) ++ r1).
  assert (Hlen : 0 + len (b :: ds) = n + 1) by (rewrite len_cons; lia).
  destruct r1 as [|c r2]; [injection H as <- <-; apply (loc_here K o 0 (b :: ds) []); [cbn [perr_col]; lia|discriminate]|].
  destruct (is 62 c) eqn:E2.
  - change ((b :: ds) ++ c :: r2) with ((b :: ds) ++ [c] ++ r2). rewrite app_assoc.
    assert (Hst : forall rest, K o 0 (((b :: ds) ++ [c]) ++ rest) = k (pri_msg v) (0 + len ((b :: ds) ++ [c])) rest).
    { intros rest. unfold K, p_pri. rewrite <- app_assoc. cbn [app]. rewrite E1, (Hpv c r2 rest eq_refl), E2. f_equal. rewrite len_cons, len_app, len_cons, len_nil. lia. }
    apply (loc_next K k o (pri_msg v)); [apply Hk|exact Hst|]. rewrite Hst, len_app, len_cons. change (len [c]) with 1. replace (0 + (len ds + 1 + 1)) with (n + 2) by lia. exact H.
  - injection H as <- <-. apply (loc_here K o 0 (b :: ds) (c :: r2)); [cbn [perr_col]; lia|]. intros b0 r0 r' E. injection E as <- <-. unfold K, p_pri. cbn [app].
    rewrite E1, (Hpv c r2 r' eq_refl), E2. reflexivity.
Qed.

Theorem spec_local cm data x e : spec5424 cm data = PBad x e ->
  0 <= perr_col e <= len data /\
  forall w b r r', data = w ++ b :: r -> perr_col e = len w -> spec5424 cm (w ++ b :: r') = PBad x e.
Proof.
  intros H. destruct (loc_pri _ (loc_header cm) data msg_zero 0 x e H) as [H1 H2]. split; [lia|]. intros w b r r' E Hw. apply (H2 w b r r' E). lia.
Qed.
