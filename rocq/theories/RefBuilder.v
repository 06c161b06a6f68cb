(* What SyslogMessage.set does, as a function of its argument. *)
From Verif Require Import Bytes GoMap GoTime Common CommonFacts GotoLang M5424Def A5424 M5424 Spec5424 Ref5424a Ref5424b
  Grammar5424 Utf8 Ts5424 Gram5424 BuilderBaseDef GenBuilder ABuilder MBuilder.
Local Open Scope Z_scope.

Definition fin (r : outcome bvars) : option message := match r with Out _ x => Some (b_sm x) | _ => None end.
Notation brun := (arun BuilderBaseDef.sem_act BuilderBaseDef.sem_cnd bdelta bedelta).
Notation btx := (texec BuilderBaseDef.sem_act BuilderBaseDef.sem_cnd).
Definition bstart (g : globals) (sm : message) : bvars := BVars 0 [] sm (currentid g) (currentparamname g) None [] [] false [].

Definition entry_state (e : entrypoint) : bst :=
  match e with
  | EpTimestamp => BTs0 | EpHostname => BW WHost 0 | EpAppname => BW WApp 0 | EpProcid => BW WProc 0 | EpMsgid => BW WMsgid 0
  | EpSdid => BW WId 0 | EpSdpn => BW WPn 0 | EpSdpv => BV0 | EpMsg => BM0 end.
Lemma bset_run e g sm v : bset e g sm v = fin (brun v (entry_state e) 0 v (bstart g sm)).
Proof.
  unfold bset. replace (translate e) with (bnum (entry_state e)) by (destruct e; reflexivity).
  rewrite exec_runB; [reflexivity|]. destruct e; cbn; tauto.
Qed.

(* ---- timestamp ---- *)
Lemma bts_loop data rest : forall n p x,
  fin (brun data (BTs n) p rest x) =
  match ts_run n rest with
  | Some 578%N => fin (btx data (bedelta (BTs 578)) (p + Z.of_nat (length rest)) x (fun _ _ => NoFuel))
  | _ => Some (b_sm x) end.
Proof.
  induction rest as [|b r IH]; intros n p x.
  - cbn [arun ts_run length]. rewrite Z.add_0_r. destruct (N.eqb_spec n 578) as [->|Hn]; [reflexivity|].
    cbn [bedelta]. apply N.eqb_neq in Hn. rewrite Hn. cbn [texec fin].
    apply N.eqb_neq in Hn. destruct n as [|q]; [reflexivity|].
    repeat (destruct q as [q|q|]; try reflexivity). congruence.
  - cbn [arun bdelta]. cbn [ts_run]. destruct (ts_next n (bN b)) as [m|]; [|reflexivity].
    cbn [texec]. rewrite IH. cbn [length]. replace (p + 1 + Z.of_nat (length r)) with (p + Z.of_nat (S (length r))) by lia. reflexivity.
Qed.

Lemma bset_ts g sm v : bset EpTimestamp g sm v =
  match v with
  | a :: w => if is_dig (bN a) then match ts_run 554 w with Some 578%N => match parse_rfc3339 v with Some t => Some (set_timestamp (Some t) sm) | None => Some sm end | _ => Some sm end else Some sm
  | [] => Some sm end.
Proof.
  rewrite bset_run. destruct v as [|a w]; [reflexivity|]. cbn [entry_state arun bdelta].
  destruct (is_dig (bN a)); [|reflexivity]. cbn [texec BuilderBaseDef.sem_act]. rewrite bts_loop.
  destruct (ts_run 554 w) as [n|]; [|reflexivity]. destruct n as [|q]; [reflexivity|].
  repeat (destruct q as [q|q|]; try reflexivity). cbn [bedelta N.eqb Pos.eqb texec BuilderBaseDef.sem_act with_btext b_pb set_b_pb].
  unfold with_btext. change (b_pb (set_b_pb 0 (bstart g sm))) with 0.
  replace (zslice (a :: w) 0 (0 + 1 + Z.of_nat (length w))) with (Some (a :: w)).
  2:{ pose proof (zslice_mid [] (a :: w) []) as H. cbn [app] in H. rewrite app_nil_r in H. cbn [length] in H. symmetry.
      replace (0 + 1 + Z.of_nat (length w)) with (Z.of_nat (0 + S (length w))) by lia. exact H. }
  destruct (parse_rfc3339 (a :: w)) as [t|]; reflexivity.
Qed.

Theorem set_ts_iff g sm v :
  (forall t, ts_text v t -> bset EpTimestamp g sm v = Some (set_timestamp (Some t) sm)) /\
  ((forall t, ~ ts_text v t) -> bset EpTimestamp g sm v = Some sm).
Proof.
  rewrite bset_ts. split.
  - intros t H. apply text_shape in H as [H Hd]. destruct (shape_run v t H) as [a [w [-> [Ha [Hr _]]]]].
    rewrite (dig_true a Ha), Hr. rewrite (rfc3339_parse_shape _ _ H). apply Z.leb_le in Hd. rewrite Hd. reflexivity.
  - intros Hn. destruct v as [|a w]; [reflexivity|]. destruct (is_dig (bN a)) eqn:Ea; [|reflexivity].
    destruct (ts_run 554 w) as [n|] eqn:Er; [|reflexivity].
    destruct (N.eqb_spec n 578) as [->|Hx].
    + destruct (run_shape a w (proj2 (digit_dig a) Ea) Er) as [t Ht]. rewrite (rfc3339_parse_shape _ _ Ht).
      destruct (Z.leb_spec (t_day t) (days_in (t_month t) (t_year t))); [|reflexivity].
      destruct (Hn t). apply text_shape. auto.
    + destruct n as [|q]; [reflexivity|]. repeat (destruct q as [q|q|]; try reflexivity). congruence.
Qed.

(* ---- words ---- *)
Definition wgood (w : wd) (v : bytes) : bool := (forallb (fun b => wchar w (bN b)) v && (Z.of_nat (length v) <=? Z.of_N (wmax w)))%bool.
Lemma bw_loop data w rest : forall k p x, (0 < k)%N -> (k <= wmax w)%N ->
  fin (brun data (BW w k) p rest x) =
  if forallb (fun b => wchar w (bN b)) rest && (Z.of_N k + Z.of_nat (length rest) <=? Z.of_N (wmax w))
  then fin (btx data (bstore w (TOut (bnum (BW w (k + N.of_nat (length rest)))))) (p + Z.of_nat (length rest)) x (fun _ _ => NoFuel))
  else Some (b_sm x).
Proof.
  induction rest as [|b r IH]; intros k p x Hk Hm.
  - cbn [arun forallb length andb]. rewrite !Z.add_0_r, N.add_0_r.
    replace (Z.of_N k <=? Z.of_N (wmax w)) with true by (symmetry; apply Z.leb_le; lia).
    cbn [bedelta]. replace (k =? 0)%N with false by (symmetry; apply N.eqb_neq; lia). reflexivity.
  - cbn [arun bdelta forallb length]. destruct (wchar w (bN b)); cbn [andb].
    + destruct (N.ltb_spec k (wmax w)).
      * replace (k =? 0)%N with false by (symmetry; apply N.eqb_neq; lia). cbn [texec]. rewrite IH by lia.
        replace (Z.of_N (k + 1) + Z.of_nat (length r)) with (Z.of_N k + Z.of_nat (S (length r))) by lia.
        replace (p + 1 + Z.of_nat (length r)) with (p + Z.of_nat (S (length r))) by lia.
        replace (k + 1 + N.of_nat (length r))%N with (k + N.of_nat (S (length r)))%N by lia. reflexivity.
      * replace (Z.of_N k + Z.of_nat (S (length r)) <=? Z.of_N (wmax w)) with false by (symmetry; apply Z.leb_gt; lia).
        rewrite andb_false_r. reflexivity.
    + reflexivity.
Qed.

(* the effect of a stored word *)
Definition wstore (w : wd) (g : globals) (v : bytes) (sm : message) : option message :=
  let dash := bseqb v (lit "-") in
  match w with
  | WHost => Some (if dash then sm else set_hostname (Some v) sm)
  | WApp => Some (if dash then sm else set_appname (Some v) sm)
  | WProc => Some (if dash then sm else set_procID (Some v) sm)
  | WMsgid => Some (if dash then sm else set_msgID (Some v) sm)
  | WId => let m := sd_read (structuredData sm) in
           Some (set_structuredData (Some (match mget m v with Some _ => m | None => mset m v [] end)) sm)
  | WPn => match structuredData sm with
           | Some m => match mget m (currentid g) with
                       | Some e => Some (set_structuredData (Some (mset m (currentid g) (mset e v []))) sm)
                       | None => None end
           | None => None end
  end.
Lemma message_eta m : Message (facility m) (severity m) (priority m) (timestamp m) (hostname m) (appname m) (procID m) (msgID m) (msg m) (version m) (structuredData m) = m.
Proof. destruct m; reflexivity. Qed.
Lemma set_sd_eta m s : structuredData m = s -> set_structuredData s m = m.
Proof. intros <-. apply message_eta. Qed.

Lemma bstore_run w g sm v n : v <> [] ->
  fin (btx v (bstore w (TOut n)) (Z.of_nat (length v)) (set_b_pb 0 (bstart g sm)) (fun _ _ => NoFuel)) = wstore w g v sm.
Proof.
  intros Hv. assert (Hs : zslice v 0 (Z.of_nat (length v)) = Some v).
  { pose proof (zslice_mid [] v []) as H. cbn [app length] in H. rewrite app_nil_r in H. exact H. }
  destruct w; cbn [bstore texec BuilderBaseDef.sem_act BuilderBaseDef.sem_cnd]; unfold with_btext.
  1-4: change (b_pb (set_b_pb 0 (bstart g sm))) with 0; rewrite Hs; cbn [texec]; unfold wstore; cbn [BuilderBaseDef.sem_cnd b_s set_b_s];
       destruct (bseqb v (lit "-")); reflexivity.
  - destruct sm as [A B C D E F H I J K [m|]]; cbn -[zslice mget mset bseqb]; unfold with_btext; cbn -[zslice mget mset bseqb]; rewrite Hs; cbn -[zslice mget mset bseqb].
    + destruct (mget m v) as [e|] eqn:Ee; cbn -[zslice mget mset bseqb]; [reflexivity|reflexivity].
    + reflexivity.
  - destruct sm as [A B C D E F H I J K [m|]]; cbn -[zslice mget mset bseqb]; [|reflexivity]. rewrite Hs.
    unfold put_elem; cbn -[zslice mget mset bseqb]. destruct (mget m (currentid g)); reflexivity.
Qed.

Definition word_ep (w : wd) : entrypoint := match w with WHost => EpHostname | WApp => EpAppname | WProc => EpProcid | WMsgid => EpMsgid | WId => EpSdid | WPn => EpSdpn end.
Lemma bset_word w g sm v : bset (word_ep w) g sm v = if wgood w v && negb (bseqb v []) then wstore w g v sm else Some sm.
Proof.
  rewrite bset_run. replace (entry_state (word_ep w)) with (BW w 0) by (destruct w; reflexivity).
  destruct v as [|a r]; [unfold wgood; rewrite andb_false_r; destruct w; reflexivity|].
  replace (negb (bseqb (a :: r) [])) with true by reflexivity. rewrite andb_true_r.
  cbn [arun bdelta]. unfold wgood. cbn [forallb length].
  assert (Hm : (1 <= wmax w)%N) by (destruct w; cbn; lia).
  replace (0 <? wmax w)%N with true by (symmetry; apply N.ltb_lt; lia). rewrite andb_true_r.
  destruct (wchar w (bN a)); [|reflexivity]. cbn [N.eqb texec BuilderBaseDef.sem_act andb]. rewrite bw_loop by lia.
  replace (Z.of_N 1 + Z.of_nat (length r)) with (Z.of_nat (S (length r))) by lia.
  destruct (forallb _ r && _); [|reflexivity].
  replace (0 + 1 + Z.of_nat (length r)) with (Z.of_nat (length (a :: r))) by (cbn [length]; lia).
  apply bstore_run. discriminate.
Qed.

Lemma wgood_word w v : match w with WId | WPn => False | _ => True end ->
  wgood w v && negb (bseqb v []) = true <-> word (N.to_nat (wmax w)) v.
Proof.
  intros Hw. unfold wgood, word. rewrite !andb_true_iff, forallb_forall, Forall_forall, Z.leb_le, negb_true_iff, bseqb_neq.
  split.
  - intros [[H1 H2] H3]. split; [destruct v; [congruence|cbn [length] in *; lia]|]. intros b Hb. apply printable_graph. specialize (H1 b Hb). destruct w; cbn in *; tauto.
  - intros [H1 H2]. split; [split; [|lia]|destruct v; cbn in *; [lia|congruence]]. intros b Hb. apply H2, printable_graph in Hb. destruct w; cbn in *; tauto.
Qed.
Lemma wgood_sdname w v : match w with WId | WPn => True | _ => False end ->
  wgood w v && negb (bseqb v []) = true <-> sdname v.
Proof.
  intros Hw. unfold wgood, sdname. rewrite !andb_true_iff, forallb_forall, Forall_forall, Z.leb_le, negb_true_iff, bseqb_neq.
  replace (Z.of_N (wmax w)) with 32 by (destruct w; tauto).
  split.
  - intros [[H1 H2] H3]. split; [destruct v; [congruence|cbn [length] in *; lia]|]. intros b Hb. apply sdc_char. specialize (H1 b Hb). destruct w; cbn in *; tauto.
  - intros [H1 H2]. split; [split; [|lia]|destruct v; cbn in *; [lia|congruence]]. intros b Hb. apply H2, sdc_char in Hb. destruct w; cbn in *; tauto.
Qed.

(* ---- message ---- *)
Lemma bm_loop data rest : forall p x, fin (brun data BM p rest x) = fin (btx data (bsetmsg (TOut 53)) (p + Z.of_nat (length rest)) x (fun _ _ => NoFuel)).
Proof.
  induction rest as [|b r IH]; intros p x; [cbn [arun length]; rewrite Z.add_0_r; reflexivity|].
  cbn [arun bdelta texec length]. rewrite IH. replace (p + 1 + Z.of_nat (length r)) with (p + Z.of_nat (S (length r))) by lia. reflexivity.
Qed.
Lemma bset_msg g sm v : bset EpMsg g sm v = Some (match v with [] => sm | _ => set_msg (Some v) sm end).
Proof.
  rewrite bset_run. cbn [entry_state]. destruct v as [|b r]; [reflexivity|]. cbn [arun bdelta texec BuilderBaseDef.sem_act]. rewrite bm_loop.
  unfold bsetmsg. cbn [texec BuilderBaseDef.sem_act]. unfold with_btext. change (b_pb (set_b_pb 0 (bstart g sm))) with 0.
  replace (zslice (b :: r) 0 (0 + 1 + Z.of_nat (length r))) with (Some (b :: r)); [reflexivity|].
  pose proof (zslice_mid [] (b :: r) []) as H. cbn [app] in H. rewrite app_nil_r in H. cbn [length] in H. symmetry.
  replace (0 + 1 + Z.of_nat (length r)) with (Z.of_nat (0 + S (length r))) by lia. exact H.
Qed.

(* ---- parameter value ---- *)
Fixpoint vok (m : vmode) (l : bytes) : bool :=
  match l with
  | [] => match m with VPlain => true | _ => false end
  | b :: r => match m with
     | VPlain => if is 34 b || is 93 b then false else if is 92 b then vok VEsc r
                 else if (bN b <? 128)%N then vok VPlain r else match utf_start (bN b) with Some i => vok (VUtf i) r | None => false end
     | VEsc => if is 34 b || is 92 b || is 93 b then vok VPlain r else false
     | VUtf i => match utf_tail i (bN b) with Some None => vok VPlain r | Some (Some j) => vok (VUtf j) r | None => false end
     end
  end.
Definition quote : byte := """"%byte.
Lemma vok_pval_scan l : forall m, vok m l = true <-> p_val m (l ++ [quote]) = (l, VClose []).
Proof.
  induction l as [|b r IH]; intros m.
  - cbn [vok app p_val]. destruct m as [| |i].
    + split; reflexivity.
    + split; [discriminate|]. cbn. discriminate.
    + split; [discriminate|]. destruct (utf_tail i (bN quote)) as [[j|]|]; cbn; discriminate.
  - assert (Hgo : forall m', vok m' r = true <-> (b :: fst (p_val m' (r ++ [quote])), snd (p_val m' (r ++ [quote]))) = (b :: r, VClose [])).
    { intros m'. rewrite IH. destruct (p_val m' (r ++ [quote])) as [raw e]. cbn [fst snd]. split; [intros H; injection H as -> ->; reflexivity|intros H; injection H as -> ->; reflexivity]. }
    cbn [vok app p_val]. destruct m as [| |i].
    + destruct (is 34 b) eqn:E34; cbn [orb]; [split; discriminate|]. destruct (is 92 b) eqn:E92.
      * replace (is 93 b) with false; [apply Hgo|]. symmetry. unfold is in *. apply N.eqb_eq in E92. rewrite E92. reflexivity.
      * destruct (is 93 b); [split; discriminate|]. destruct (bN b <? 128)%N; [apply Hgo|]. destruct (utf_start (bN b)); [apply Hgo|split; discriminate].
    + destruct (is 34 b || is 92 b || is 93 b); [apply Hgo|split; discriminate].
    + destruct (utf_tail i (bN b)) as [[j|]|]; [apply Hgo|apply Hgo|split; discriminate].
Qed.
Lemma vok_pval l : vok VPlain l = true <-> pval l (unesc l).
Proof.
  rewrite vok_pval_scan. split.
  - intros H. apply scan_pval in H. apply H.
  - intros H. apply pval_scan in H as [_ H]. apply H.
Qed.
Lemma pval_unesc l v : pval l v -> v = unesc l.
Proof. intros H. apply pval_scan in H as [H _]. auto. Qed.

Definition bvst (m : vmode) : bst := match m with VPlain => BV | VEsc => BEsc | VUtf i => BU i end.
Definition baddback (l : list Z) (x : bvars) : bvars := set_b_back (b_back x ++ l) x.
Lemma baddback_nil x : baddback [] x = x. Proof. unfold baddback. rewrite app_nil_r. destruct x; reflexivity. Qed.
Lemma baddback_app a b x : baddback b (baddback a x) = baddback (a ++ b) x.
Proof. unfold baddback. cbn. rewrite app_assoc. reflexivity. Qed.

Lemma bv_loop data rest : forall m p x,
  fin (brun data (bvst m) p rest x) =
  if vok m rest then fin (btx data (bsetval (TOut 583)) (p + Z.of_nat (length rest)) (baddback (epos (vesc m) p rest) x) (fun _ _ => NoFuel)) else Some (b_sm x).
Proof.
  induction rest as [|b r IH]; intros m p x.
  - cbn [vok epos length]. rewrite Z.add_0_r, baddback_nil. destruct m; reflexivity.
  - assert (Hp : forall q, q + 1 + Z.of_nat (length r) = q + Z.of_nat (length (b :: r))) by (intros; cbn [length]; lia).
    cbn [arun]. destruct m as [| |i]; cbn [bvst bdelta vok epos vesc].
    + unfold bval_t. change (bN b =? 34)%N with (is 34 b). change (bN b =? 93)%N with (is 93 b). change (bN b =? 92)%N with (is 92 b).
      destruct (is 34 b || is 93 b); [reflexivity|]. destruct (is 92 b).
      * cbn [bacts texec BuilderBaseDef.sem_act]. change (set_b_back (b_back x ++ [p]) x) with (baddback [p] x). change BEsc with (bvst VEsc). rewrite IH.
        rewrite baddback_app, Hp. cbn [vesc app]. destruct (vok VEsc r); [reflexivity|reflexivity].
      * destruct (bN b <? 128)%N.
        { cbn [bacts texec]. change BV with (bvst VPlain). rewrite IH, Hp. reflexivity. }
        destruct (utf_start (bN b)) as [i|]; [|reflexivity]. cbn [bacts texec]. change (BU i) with (bvst (VUtf i)). rewrite IH, Hp. reflexivity.
    + change (bN b =? 34)%N with (is 34 b). change (bN b =? 93)%N with (is 93 b). change (bN b =? 92)%N with (is 92 b).
      destruct (is 34 b || is 92 b || is 93 b); [|reflexivity]. cbn [texec]. change BV with (bvst VPlain). rewrite IH, Hp. reflexivity.
    + destruct (utf_tail i (bN b)) as [[j|]|] eqn:Et; [| |reflexivity].
      all: pose proof (utf_tail_ge _ _ _ Et) as Hge; assert (E92 : is 92 b = false) by (unfold is; apply N.eqb_neq; lia); rewrite E92.
      * cbn [texec]. change (BU j) with (bvst (VUtf j)). rewrite IH, Hp. reflexivity.
      * cbn [texec]. change BV with (bvst VPlain). rewrite IH, Hp. reflexivity.
Qed.

Definition vstore (g : globals) (v : bytes) (sm : message) : option message :=
  match structuredData sm with
  | Some m => match mget m (currentid g) with
              | Some e => Some (set_structuredData (Some (mset m (currentid g) (mset e (currentparamname g) v))) sm)
              | None => None end
  | None => None end.

Lemma bsetval_run g sm v n : 
  fin (btx v (bsetval (TOut n)) (Z.of_nat (length v)) (baddback (epos false 0 v) (set_b_pb 0 (bstart g sm))) (fun _ _ => NoFuel)) = vstore g (unesc v) sm.
Proof.
  assert (Hs : zslice v 0 (Z.of_nat (length v)) = Some v).
  { pose proof (zslice_mid [] v []) as H. cbn [app length] in H. rewrite app_nil_r in H. exact H. }
  pose proof (remove_epos v false [] 0 0 0 eq_refl) as Hr. cbn [app] in Hr. rewrite <- unesc_unesc2 in Hr. fold (remove_bytes v (epos false 0 v) 0) in Hr.
  unfold bsetval. cbn [texec BuilderBaseDef.sem_act]. unfold with_btext. cbn [b_pb baddback set_b_back set_b_pb bstart]. rewrite Hs.
  destruct sm as [A B C D E F H I J K sd].
  destruct (epos false 0 v) as [|q l] eqn:Ee.
  - cbn in Hr. injection Hr as Hr. rewrite <- Hr. cbn -[zslice mget mset]. unfold vstore. cbn -[zslice mget mset]. destruct sd as [m|]; [|reflexivity].
    cbn -[zslice mget mset]. unfold put_elem. cbn -[zslice mget mset]. destruct (mget m (currentid g)); reflexivity.
  - cbn -[zslice mget mset remove_bytes]. rewrite Hr. cbn -[zslice mget mset]. unfold vstore. cbn -[zslice mget mset]. destruct sd as [m|]; [|reflexivity].
    cbn -[zslice mget mset]. unfold put_elem. cbn -[zslice mget mset]. destruct (mget m (currentid g)); reflexivity.
Qed.

Lemma bset_val g sm v : bset EpSdpv g sm v = if vok VPlain v then vstore g (unesc v) sm else Some sm.
Proof.
  rewrite bset_run. cbn [entry_state]. destruct v as [|b r].
  - cbn [vok]. apply (bsetval_run g sm [] 582).
  - assert (H : fin (brun (b :: r) BV0 0 (b :: r) (bstart g sm)) = fin (brun (b :: r) BV 0 (b :: r) (set_b_pb 0 (bstart g sm)))).
    { cbn [arun bdelta]. unfold bval_t. destruct ((bN b =? 34) || (bN b =? 93))%N; [reflexivity|]. destruct (bN b =? 92)%N; [reflexivity|].
      destruct (bN b <? 128)%N; [reflexivity|]. destruct (utf_start (bN b)); reflexivity. }
    rewrite H. change BV with (bvst VPlain). rewrite bv_loop. cbn [vesc]. destruct (vok VPlain (b :: r)); [|reflexivity].
    apply (bsetval_run g sm (b :: r) 583).
Qed.
