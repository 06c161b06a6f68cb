(* C36-C43, C52: octet counting. *)
From Verif Require Import Bytes CommonFacts Common M5424Def M5424 MBuilder Spec5424 Ref5424c Props5424 Thm5424 Bufio MOctet SpecOctet ROctet.
Local Open Scope Z_scope.

(* ---------- the RFC 5424 machine ---------- *)
Lemma answer_no_lt best data : (forall t, data <> "<"%byte :: t) -> answer best data = (None, Some (PErr EPri 0)).
Proof.
  intros H. unfold answer. rewrite (proj1 (parse_spec _ data)). unfold spec5424.
  destruct data as [|b t]; [reflexivity|]. destruct (beqb b "<") eqn:Eb; [apply beqb_eq in Eb; subst b; destruct (H t eq_refl)|].
  unfold p_pri. replace (is 60 b) with false by (symmetry; exact Eb). reflexivity.
Qed.
Lemma answer_cases best data : match answer best data with
  | (Some _, None) | (None, Some _) => True
  | (Some _, Some _) => best = true
  | (None, None) => False end.
Proof.
  unfold answer. destruct (parse_shape (new_machine best false) data) as [[m [E _]]|[[e E]|[m [e [E [Hb _]]]]]]; rewrite E; auto.
Qed.

(* ---------- the length ---------- *)
Lemma digit_test b : ((48 <=? bN b) && (bN b <=? 57))%N = true <-> digit b.
Proof. unfold digit. rewrite andb_true_iff, !N.leb_le. tauto. Qed.
Lemma nonzero_digit b : is_nonzero_digit b = true <-> digit b. Proof. apply digit_test. Qed.
Lemma digit_is_digit b : digit b -> is_digit b = true.
Proof. unfold digit, is_digit. intros H. rewrite andb_true_iff, !N.leb_le. lia. Qed.
Lemma digit_not_nul b : digit b -> beqb b x00 = false.
Proof. intros H. apply not_true_iff_false. intros E. apply beqb_eq in E. subst b. unfold digit in H. change (bN x00) with 0%N in H. lia. Qed.
Lemma dec_acc_mono s : forall a, Forall digit s -> 0 <= a -> a <= dec_acc a s.
Proof.
  induction s as [|b s IH]; intros a Hs Ha; cbn [dec_acc]; [lia|]. inversion Hs as [|? ? Hb Hs']; subst. unfold digit, dig in *.
  specialize (IH (10 * a + (Z.of_N (bN b) - 48)) Hs'). lia.
Qed.
Lemma parse_uint_loop_dec s : forall n, Forall digit s -> 0 <= n < 2 ^ 64 -> parse_uint_loop n s = Z.min (dec_acc n s) (2 ^ 64 - 1).
Proof.
  induction s as [|b s IH]; intros n Hs Hn; cbn [parse_uint_loop dec_acc]; [lia|]. inversion Hs as [|? ? Hb Hs']; subst.
  rewrite (proj2 (digit_test b) Hb). unfold digit in Hb. replace (n * 10 + (Z.of_N (bN b) - 48)) with (10 * n + dig b) by (unfold dig; lia).
  assert (Hd : 0 <= dig b <= 9) by (unfold dig; lia). pose proof (dec_acc_mono s (10 * n + dig b) Hs' ltac:(lia)).
  change (2 ^ 64 / 10 + 1) with 1844674407370955162. destruct (Z.leb_spec 1844674407370955162 n); [lia|].
  destruct (Z.leb_spec (2 ^ 64) (10 * n + dig b)); [lia|]. apply IH; [exact Hs'|lia].
Qed.
Lemma parse_uint_dec s : Forall digit s -> parse_uint s = Z.min (dec s) (2 ^ 64 - 1).
Proof. intros H. destruct s; [reflexivity|]. cbn [parse_uint]. apply parse_uint_loop_dec; [exact H|lia]. Qed.
Lemma parse_uint_loop_inv s : forall n, 0 <= n -> 0 < parse_uint_loop n s < 2 ^ 64 - 1 -> Forall digit s /\ parse_uint_loop n s = dec_acc n s.
Proof.
  induction s as [|b s IH]; intros n Hn H; cbn [parse_uint_loop dec_acc] in *; [split; [constructor|reflexivity]|].
  destruct ((48 <=? bN b) && (bN b <=? 57))%N eqn:E; [|lia]. apply digit_test in E. unfold digit in E.
  destruct (2 ^ 64 / 10 + 1 <=? n); [lia|]. destruct (2 ^ 64 <=? n * 10 + (Z.of_N (bN b) - 48)); [lia|].
  replace (n * 10 + (Z.of_N (bN b) - 48)) with (10 * n + dig b) in * by (unfold dig; lia). destruct (IH (10 * n + dig b)) as [I1 I2]; [unfold dig; lia|exact H|].
  split; [constructor; [exact E|exact I1]|exact I2].
Qed.
Lemma parse_uint_inv s : 0 < parse_uint s < 2 ^ 64 - 1 -> Forall digit s /\ parse_uint s = dec s.
Proof. destruct s as [|b s]; cbn [parse_uint]; [lia|]. intros H. apply parse_uint_loop_inv; [lia|exact H]. Qed.
Lemma to_int_id x : 0 <= x < 2 ^ 63 -> to_int x = x. Proof. intros H. unfold to_int. destruct (Z.ltb_spec x (2 ^ 63)); lia. Qed.
Lemma to_int_pos x : 0 <= x < 2 ^ 64 -> 0 <= to_int x -> to_int x = x /\ x < 2 ^ 63.
Proof. intros H H2. unfold to_int in *. destruct (Z.ltb_spec x (2 ^ 63)); lia. Qed.

(* ---------- scanning forwards ---------- *)
Definition gap_ok (g : list item) : Prop := g = [] \/ g = [IByte x00] \/ g = [IErr].
(* the next byte, if there is one, does not continue a number *)
Definition number_ends (l : list item) : Prop := forall b r, l = IByte b :: r -> ~ len_char b.
Lemma len_char_test b : is_digit b = true <-> len_char b.
Proof.
  unfold is_digit, len_char, digit. rewrite andb_true_iff, !N.leb_le. split; [|intros [H| ->]; [lia|split; vm_compute; congruence]].
  intros H. destruct (N.eq_dec (bN b) 47) as [E|E]; [right; apply bN_inj; exact E|left; lia].
Qed.
Lemma len_char_false b : ~ len_char b -> is_digit b = false.
Proof. intros H. apply not_true_iff_false. rewrite len_char_test. exact H. Qed.
Lemma adigits_stop ds l : Forall digit ds -> number_ends l -> fst (adigits (map IByte ds ++ l)) = ds.
Proof.
  induction ds as [|d ds IH]; intros H Hl; cbn [map app].
  - destruct l as [|[b|] r]; cbn [adigits]; [reflexivity| |reflexivity]. destruct (beqb b x00); [reflexivity|]. rewrite (len_char_false b (Hl b r eq_refl)). reflexivity.
  - inversion H as [|? ? Hd Hs]; subst. cbn [adigits]. rewrite (digit_not_nul d Hd), (digit_is_digit d Hd). cbn [fst]. rewrite IH by assumption. reflexivity.
Qed.
Lemma adigits_gap ds gap r : Forall digit ds -> gap_ok gap -> adigits (map IByte ds ++ gap ++ IByte " " :: r) = (ds, IByte " " :: r).
Proof.
  intros H Hg. induction ds as [|d ds IH]; cbn [map app].
  - destruct Hg as [-> | [-> | ->]]; reflexivity.
  - inversion H as [|? ? Hd Hs]; subst. cbn [adigits]. rewrite (digit_not_nul d Hd), (digit_is_digit d Hd), (IH Hs). reflexivity.
Qed.
Lemma ascan_len ml rdy ds gap r : ds <> [] -> Forall digit ds -> gap_ok gap ->
  ascan ml rdy (map IByte ds ++ gap ++ IByte " " :: r) = (Token MSGLEN ds, parse_uint ds, false, IByte " " :: r).
Proof.
  intros Hn H Hg. destruct ds as [|d ds]; [congruence|]. inversion H as [|? ? Hd Hs]; subst. unfold ascan. cbn [map app aread next].
  rewrite (proj2 (nonzero_digit d) Hd), (adigits_gap ds gap r Hs Hg). reflexivity.
Qed.
Lemma ascan_space ml rdy r : ascan ml rdy (IByte " " :: r) = (Token WS [" "%byte], ml, true, r). Proof. reflexivity. Qed.
Lemma ascan_lt ml rdy r : 0 < ml < 2 ^ 63 -> rdy = true -> ascan ml rdy (IByte "<" :: r) =
  match take_bytes (Z.to_nat ml) (IByte "<" :: r) with
  | (t, true, r') => (Token SYSLOGMSG t, 0, false, r')
  | (t, false, r') => (Token EOF t, ml, rdy, r') end.
Proof.
  intros Hm ->. unfold ascan. cbn [aread next]. change (is_nonzero_digit "<") with false. change (beqb "<" x00) with false. change (beqb "<" " ") with false. change (beqb "<" "<") with true.
  destruct (Z.ltb_spec 0 ml); [|lia]. cbn [andb]. rewrite (to_int_id ml) by lia. destruct (Z.ltb_spec ml 0); [lia|]. reflexivity.
Qed.

(* ---------- one frame ---------- *)
Inductive shape := SFrame (t : bytes) (r : list item) | STrunc (t : bytes) (n : Z) | SBad (e : oerr).
Definition classify (max : Z) (best : bool) (l : list item) : shape :=
  match ascan 0 false l with
  | (tok, ml, rdy, r) =>
    if negb (is_typ MSGLEN tok) then SBad (EFound tok MSGLEN)
    else if max <? to_int ml then SBad (ETooLong ml max)
    else
      match ascan ml rdy r with
      | (tok, ml, rdy, r) =>
        if negb (is_typ WS tok) then SBad (EFound tok WS)
        else
          match ascan ml rdy r with
          | (tok, ml, rdy, r) =>
            if is_typ SYSLOGMSG tok then SFrame (tlit tok) r
            else if is_typ EOF tok && (match tlit tok with [] => false | _ => true end) then STrunc (tlit tok) ml
            else SBad (if (Z.of_nat (length (tlit tok)) <? to_int ml) && best then
                         match snd (answer best (tlit tok)) with Some x => EMachine x | None => EAfter tok ml end
                       else EAfter tok ml)
          end
      end
  end.
Lemma ascan_third ml l tok ml' rdy' r : 0 <= ml < 2 ^ 63 \/ to_int ml < 0 -> ascan ml true l = (tok, ml', rdy', r) ->
  (is_typ SYSLOGMSG tok = true /\ 0 < ml < 2 ^ 63 /\ l = map IByte (tlit tok) ++ r /\ Z.of_nat (length (tlit tok)) = ml /\ exists t, tlit tok = "<"%byte :: t)
  \/ (is_typ SYSLOGMSG tok = false /\ is_typ EOF tok = true /\ ml' = ml /\ 0 < ml < 2 ^ 63 /\ Z.of_nat (length (tlit tok)) < ml /\ (exists t, tlit tok = "<"%byte :: t)
       /\ exists rest, l = map IByte (tlit tok) ++ rest /\ (rest = [] \/ exists q, rest = IErr :: q))
  \/ (is_typ SYSLOGMSG tok = false /\ (is_typ EOF tok && (match tlit tok with [] => false | _ => true end) = false)
       /\ ((forall t, tlit tok <> "<"%byte :: t) \/ Z.of_nat (length (tlit tok)) <? to_int ml' = false)).
Proof.
  intros Hml. unfold ascan. destruct (aread l) as [c q] eqn:Ea.
  destruct (is_nonzero_digit c) eqn:En.
  { intros E. injection E as <- <- <- <-. right. right. split; [reflexivity|]. split; [reflexivity|]. left. cbn [tlit]. intros t E. assert (c = "<"%byte) by congruence. subst c. discriminate. }
  destruct (beqb c x00) eqn:E0.
  { intros E. injection E as <- <- <- <-. right. right. split; [reflexivity|]. split; [reflexivity|]. left. discriminate. }
  destruct (beqb c " ") eqn:Es.
  { intros E. injection E as <- <- <- <-. right. right. split; [reflexivity|]. split; [reflexivity|]. left. discriminate. }
  assert (El : l = IByte c :: q).
  { unfold aread in Ea. destruct l as [|[b|] r']; cbn in Ea; injection Ea as <- <-; try discriminate. reflexivity. }
  destruct (beqb c "<") eqn:Ec; cbn [andb].
  2:{ intros E. injection E as <- <- <- <-. right. right. split; [reflexivity|]. split; [reflexivity|]. left. cbn [tlit]. intros t E. assert (c = "<"%byte) by congruence. subst c. discriminate. }
  apply beqb_eq in Ec. subst c. destruct (Z.ltb_spec 0 ml) as [Hp|Hp]; cbn [andb].
  2:{ intros E. injection E as <- <- <- <-. right. right. split; [reflexivity|]. split; [reflexivity|]. right. cbn [tlit length]. apply Z.ltb_ge. destruct Hml as [Hml|Hml]; [rewrite to_int_id|]; lia. }
  destruct (Z.ltb_spec (to_int ml) 0) as [Hneg|Hpos].
  { intros E. injection E as <- <- <- <-. right. right. split; [reflexivity|]. split; [reflexivity|]. left. discriminate. }
  destruct Hml as [Hml|Hml]; [|lia]. rewrite to_int_id by lia.
  assert (Hinv : forall n l t k r, take_bytes n l = (t, k, r) -> (k = true -> l = map IByte t ++ r /\ length t = n)
      /\ (k = false -> (length t < n)%nat /\ exists rest, l = map IByte t ++ rest /\ (rest = [] \/ exists q, rest = IErr :: q))).
  { clear. intros n. induction n as [|n IH]; intros l t k r H; cbn [take_bytes] in H; [injection H as <- <- <-; split; [auto|discriminate]|].
    destruct l as [|[b|] l].
    - injection H as <- <- <-. split; [discriminate|]. intros _. cbn. split; [lia|]. exists []. auto.
    - destruct (take_bytes n l) as [[t' k'] r'] eqn:E. injection H as <- <- <-. destruct (IH _ _ _ _ E) as [I1 I2]. split.
      + intros Hk. destruct (I1 Hk) as [-> Hl]. cbn. rewrite Hl. auto.
      + intros Hk. destruct (I2 Hk) as [Hl [rest [-> Hr]]]. cbn. split; [lia|]. exists rest. auto.
    - injection H as <- <- <-. split; [discriminate|]. intros _. cbn. split; [lia|]. exists (IErr :: l). eauto. }
  destruct (take_bytes (Z.to_nat ml) l) as [[t k] r'] eqn:Et. destruct (Hinv _ _ _ _ _ Et) as [I1 I2].
  assert (Ht : exists t', t = "<"%byte :: t').
  { rewrite El in Et. destruct (Z.to_nat ml) as [|n] eqn:Ez; [lia|]. cbn [take_bytes] in Et. destruct (take_bytes n q) as [[t' k'] r'']. injection Et as <- <- <-. eauto. }
  destruct k; intros E; injection E as <- <- <- <-; cbn [tlit is_typ typ].
  - left. destruct (I1 eq_refl) as [I3 I4]. split; [reflexivity|]. split; [lia|]. split; [exact I3|]. split; [lia|exact Ht].
  - right. left. destruct (I2 eq_refl) as [I3 I4]. split; [reflexivity|]. split; [reflexivity|]. split; [reflexivity|]. split; [lia|]. split; [lia|]. split; [exact Ht|exact I4].
Qed.
Lemma adigits_inv l : fst (adigits l) = fst (adigits l) -> exists gap, l = map IByte (fst (adigits l)) ++ gap ++ snd (adigits l) /\ gap_ok gap.
Proof.
  intros _. induction l as [|[b|] l IH]; cbn [adigits].
  - exists []. unfold gap_ok. auto.
  - destruct (beqb b x00) eqn:E0; [apply beqb_eq in E0; subst b; exists [IByte x00]; unfold gap_ok; auto|]. destruct (is_digit b).
    + destruct IH as [gap [H Hg]]. exists gap. cbn [fst snd map app]. rewrite <- H. auto.
    + exists []. unfold gap_ok. auto.
  - exists [IErr]. unfold gap_ok. auto.
Qed.
Lemma ascan_first l tok ml rdy r : ascan 0 false l = (tok, ml, rdy, r) ->
  (is_typ MSGLEN tok = true /\ ml = parse_uint (tlit tok) /\ tlit tok <> [] /\ is_typ EOF tok = false /\ ~ at_end l /\ exists gap, l = map IByte (tlit tok) ++ gap ++ r /\ gap_ok gap)
  \/ (is_typ MSGLEN tok = false /\ (is_typ EOF tok = true <-> at_end l) /\ forall b q, l = IByte b :: q -> ~ digit b).
Proof.
  unfold ascan. destruct (aread l) as [c q] eqn:Ea.
  assert (El : forall b q', l = IByte b :: q' -> c = b) by (intros b q' ->; cbn in Ea; congruence).
  destruct (is_nonzero_digit c) eqn:En.
  { intros E. injection E as <- <- <- <-. left. cbn [tlit is_typ typ]. split; [reflexivity|]. split; [reflexivity|]. split; [discriminate|]. split; [reflexivity|].
    assert (El2 : l = IByte c :: q). { unfold aread in Ea. destruct l as [|[b|] r']; cbn in Ea; injection Ea as <- <-; try discriminate. reflexivity. }
    split. { intros [->|[r [->| ->]]]; try discriminate. injection El2 as <- _. discriminate. }
    destruct (adigits_inv q eq_refl) as [gap [H Hg]]. exists gap. rewrite El2. cbn [map app]. rewrite <- H. auto. }
  assert (Hnd : forall b q, l = IByte b :: q -> ~ digit b). { intros b q' Hl Hd. rewrite (El b q' Hl) in En. apply nonzero_digit in Hd. congruence. }
  destruct (beqb c x00) eqn:E0.
  { intros E. injection E as <- <- <- <-. right. split; [reflexivity|]. split; [|exact Hnd]. split; [|reflexivity]. intros _. apply beqb_eq in E0. subst c.
    unfold aread in Ea. destruct l as [|[b|] r']; cbn in Ea; [left; reflexivity| |right; exists r'; auto]. right. exists r'. assert (b = x00) by congruence. subst b. auto. }
  assert (Hne : ~ at_end l). { intros [->|[r' [->| ->]]]; cbn in Ea; injection Ea as <- _; discriminate. }
  assert (Hx : forall t : token, is_typ EOF t = false -> (is_typ EOF t = true <-> at_end l)) by (intros t Ht; rewrite Ht; split; [discriminate|tauto]).
  destruct (beqb c " "); [intros E; injection E as <- <- <- <-; right; split; [reflexivity|]; split; [apply Hx; reflexivity|exact Hnd]|].
  rewrite andb_false_r. intros E; injection E as <- <- <- <-; right; split; [reflexivity|]; split; [apply Hx; reflexivity|exact Hnd].
Qed.

Lemma ascan_ws_full ml rdy l tok ml' rdy' r : ascan ml rdy l = (tok, ml', rdy', r) -> is_typ WS tok = true -> ml' = ml /\ rdy' = true /\ l = IByte " " :: r.
Proof.
  unfold ascan. destruct (aread l) as [c q] eqn:Ea.
  destruct (is_nonzero_digit c); [intros E; injection E as <- <- <- <-; discriminate|].
  destruct (beqb c x00); [intros E; injection E as <- <- <- <-; discriminate|].
  destruct (beqb c " ") eqn:Es.
  { intros E; injection E as <- <- <- <-. intros _. split; [reflexivity|]. split; [reflexivity|]. apply beqb_eq in Es. subst c.
    unfold aread in Ea. destruct l as [|[b|] r']; cbn in Ea; try discriminate. injection Ea as -> ->. reflexivity. }
  destruct (beqb c "<" && (0 <? ml) && rdy); [|intros E; injection E as <- <- <- <-; discriminate].
  destruct (to_int ml <? 0); [intros E; injection E as <- <- <- <-; discriminate|].
  destruct (take_bytes _ l) as [[t k] q']. destruct k; intros E; injection E as <- <- <- <-; discriminate.
Qed.

Lemma classify_abody rec max best l tok ml rdy r : max < 2 ^ 63 - 20 -> ascan 0 false l = (tok, ml, rdy, r) ->
  abody rec max best tok ml rdy r =
  match classify max best l with
  | SFrame t r => match best, snd (answer best t) with
                  | false, Some x => Some [Result None (Some (EMachine x))]
                  | _, _ => match rec r with Some rs => Some (answer_result best t :: rs) | None => None end end
  | STrunc t n => Some [if best then Result (fst (answer true t)) (Some (match snd (answer true t) with Some x => EMachine x | None => EAfter (Token EOF t) n end))
                        else Result None (Some (EAfter (Token EOF t) n))]
  | SBad e => Some [Result None (Some e)]
  end.
Proof.
  intros Hmax E. unfold abody, classify. rewrite E. assert (Hr : 0 <= ml < 2 ^ 64) by (eapply ascan_range; [|exact E]; lia).
  destruct (negb (is_typ MSGLEN tok)); [reflexivity|]. destruct (Z.ltb_spec max (to_int ml)) as [Hl|Hl]; [reflexivity|].
  destruct (ascan ml rdy r) as [[[tok2 ml2] rdy2] r2] eqn:E2. destruct (is_typ WS tok2) eqn:Ew; cbn [negb]; [|reflexivity].
  destruct (ascan_ws_full _ _ _ _ _ _ _ E2 Ew) as [-> [-> _]].
  assert (Hml : 0 <= ml < 2 ^ 63 \/ to_int ml < 0) by (unfold to_int in *; destruct (Z.ltb_spec ml (2 ^ 63)); lia).
  destruct (ascan ml true r2) as [[[tok3 ml3] rdy3] r3] eqn:E3. destruct (ascan_third _ _ _ _ _ _ Hml E3) as [[H1 _]|[[H1 [H2 [H3 [H4 [H5 [[t H6] _]]]]]]|[H1 [H2 H3]]]]; rewrite H1; cbn [negb].
  - unfold answer_result. destruct best; [destruct (answer true (tlit tok3)) as [m e]|destruct (answer false (tlit tok3)) as [m [e|]]]; reflexivity.
  - rewrite H2, H6, H3. cbn [andb]. rewrite <- H6. assert (Hlt : Z.of_nat (length (tlit tok3)) <? to_int ml = true) by (apply Z.ltb_lt; rewrite to_int_id by lia; exact H5). rewrite Hlt. cbn [andb].
    assert (Ht : Token EOF (tlit tok3) = tok3) by (destruct tok3 as [ty li]; destruct ty; try discriminate H2; reflexivity). rewrite Ht.
    destruct best; [|reflexivity]. destruct (answer true (tlit tok3)) as [m [e|]]; reflexivity.
  - rewrite H2. destruct H3 as [H3|H3].
    + rewrite (answer_no_lt best _ H3). cbn [fst snd]. destruct ((Z.of_nat (length (tlit tok3)) <? to_int ml3) && best); reflexivity.
    + rewrite H3. reflexivity.
Qed.

Lemma classify_frame max best f rest : max < 2 ^ 63 - 20 -> frame_ok max f -> classify max best (frame_items f ++ rest) = SFrame (f_msg f) rest.
Proof.
  intros Hm [H1 [H2 [H3 [H4 [[t H5] H6]]]]]. unfold classify, frame_items. rewrite <- !app_assoc. cbn [app]. rewrite (ascan_len 0 false (f_len f) (f_gap f) _ H1 H2 H6).
  cbn [is_typ typ negb]. assert (Hp : 0 < dec (f_len f)) by (rewrite H3, H5; cbn [length]; lia). rewrite (parse_uint_dec _ H2), Z.min_l by lia. rewrite to_int_id by lia.
  destruct (Z.ltb_spec max (dec (f_len f))); [lia|]. rewrite ascan_space. cbn [is_typ typ negb]. rewrite H5. cbn [map app]. rewrite ascan_lt by (lia || reflexivity).
  change (IByte "<" :: map IByte t ++ rest) with (map IByte ("<"%byte :: t) ++ rest). rewrite <- H5. rewrite take_map by lia.
  rewrite H3, Nat2Z.id, firstn_all, skipn_all. reflexivity.
Qed.
Lemma classify_trunc max best l ds t : max < 2 ^ 63 - 20 -> truncated max l ds t -> classify max best l = STrunc t (dec ds).
Proof.
  intros Hm [H1 [H2 [H3 [[t' H4] [gap [rest [H5 [H6 H7]]]]]]]]. subst l. unfold classify. rewrite (ascan_len 0 false ds gap _ H1 H2 H6).
  cbn [is_typ typ negb]. assert (Hp : 0 < dec ds) by lia. rewrite (parse_uint_dec _ H2), Z.min_l by lia. rewrite to_int_id by lia.
  destruct (Z.ltb_spec max (dec ds)); [lia|]. rewrite ascan_space. cbn [is_typ typ negb]. rewrite H4. cbn [map app]. rewrite ascan_lt by (lia || reflexivity).
  change (IByte "<" :: map IByte t' ++ rest) with (map IByte ("<"%byte :: t') ++ rest). rewrite <- H4.
  assert (Ht : exists r', take_bytes (Z.to_nat (dec ds)) (map IByte t ++ rest) = (t, false, r')).
  { assert (Hl : (length t < Z.to_nat (dec ds))%nat) by lia. revert Hl H7. clear. generalize (Z.to_nat (dec ds)) as n. induction t as [|b t IH]; intros n Hl Hr; cbn [map app].
    - destruct n; [cbn in Hl; lia|]. destruct Hr as [->|[q ->]]; cbn; eauto.
    - destruct n; [cbn in Hl; lia|]. cbn [take_bytes]. destruct (IH n) as [r' ->]; [cbn in Hl; lia|exact Hr|]. eauto. }
  destruct Ht as [r' ->]. cbn [is_typ typ tlit]. rewrite H4. reflexivity.
Qed.
Lemma classify_inv max best l : max < 2 ^ 63 - 20 ->
  match classify max best l with
  | SFrame t r => exists f, frame_ok max f /\ f_msg f = t /\ l = frame_items f ++ r
  | STrunc t n => exists ds, truncated max l ds t /\ n = dec ds
  | SBad _ => True
  end.
Proof.
  intros Hmax. unfold classify. destruct (ascan 0 false l) as [[[tok ml] rdy] r] eqn:E. assert (Hr : 0 <= ml < 2 ^ 64) by (eapply ascan_range; [|exact E]; lia).
  destruct (ascan_first _ _ _ _ _ E) as [[H1 [H2 [H3 [_ [_ [gap [H4 H5]]]]]]]|[H1 _]]; rewrite H1; cbn [negb]; [|exact I].
  destruct (Z.ltb_spec max (to_int ml)) as [Hl|Hl]; [exact I|].
  destruct (ascan ml rdy r) as [[[tok2 ml2] rdy2] r2] eqn:E2. destruct (is_typ WS tok2) eqn:Ew; cbn [negb]; [|exact I].
  destruct (ascan_ws_full _ _ _ _ _ _ _ E2 Ew) as [-> [-> ->]].
  assert (Hml : 0 <= ml < 2 ^ 63 \/ to_int ml < 0) by (unfold to_int in *; destruct (Z.ltb_spec ml (2 ^ 63)); lia).
  destruct (ascan ml true r2) as [[[tok3 ml3] rdy3] r3] eqn:E3.
  destruct (ascan_third _ _ _ _ _ _ Hml E3) as [[G1 [G2 [G3 [G4 G5]]]]|[[G1 [G2 [G3 [G4 [G5 [[t G6] [rest [G7 G8]]]]]]]]|[G1 [G2 G3]]]]; rewrite G1.
  - destruct (parse_uint_inv (tlit tok)) as [D1 D2]; [lia|]. exists (Frame (tlit tok) gap (tlit tok3)). unfold frame_ok, frame_items. cbn [f_len f_gap f_msg].
    rewrite to_int_id in Hl by lia. split; [|split; [reflexivity|]].
    + split; [exact H3|]. split; [exact D1|]. split; [lia|]. split; [lia|]. split; [exact G5|exact H5].
    + rewrite H4, G3, <- !app_assoc. reflexivity.
  - rewrite G2, G6. cbn [andb]. rewrite <- G6. destruct (parse_uint_inv (tlit tok)) as [D1 D2]; [lia|]. exists (tlit tok). split; [|lia].
    rewrite to_int_id in Hl by lia. split; [exact H3|]. split; [exact D1|]. split; [lia|]. split; [eauto|]. exists gap, rest. rewrite H4, G7. auto.
  - rewrite G2. exact I.
Qed.

(* ---------- malformed streams ---------- *)
Lemma to_int_of n : to_int n = int_of n. Proof. reflexivity. Qed.
Lemma len_char_nul b : len_char b -> beqb b x00 = false.
Proof. intros H. apply not_true_iff_false. intros E. apply beqb_eq in E. subst b. apply len_char_test in H. discriminate. Qed.
Lemma adigits_field q : let (w, rest) := adigits q in Forall len_char w /\
  (q = map IByte w ++ rest /\ (rest = [] \/ exists b r, rest = IByte b :: r /\ ~ len_char b /\ b <> x00) \/ q = map IByte w ++ IByte x00 :: rest \/ q = map IByte w ++ IErr :: rest).
Proof.
  induction q as [|[b|] q IH]; cbn [adigits].
  - split; [constructor|]. left. auto.
  - destruct (beqb b x00) eqn:E0; [apply beqb_eq in E0; subst b; split; [constructor|]; auto|].
    destruct (is_digit b) eqn:Ed.
    + destruct (adigits q) as [w rest]. cbn [fst snd map app]. destruct IH as [I1 I2]. apply len_char_test in Ed. split; [constructor; assumption|].
      destruct I2 as [[-> I2]|[-> | ->]]; auto.
    + split; [constructor|]. left. split; [reflexivity|]. right. exists b, q. split; [reflexivity|]. split; [rewrite <- len_char_test; congruence|]. intros ->. discriminate.
  - split; [constructor|]. auto.
Qed.
Lemma field_adigits w : forall q rest, Forall len_char w ->
  (q = map IByte w ++ rest /\ (rest = [] \/ exists b r, rest = IByte b :: r /\ ~ len_char b /\ b <> x00) \/ q = map IByte w ++ IByte x00 :: rest \/ q = map IByte w ++ IErr :: rest) -> adigits q = (w, rest).
Proof.
  induction w as [|c w IH]; intros q rest H Hq; cbn [map app] in Hq.
  - destruct Hq as [[-> [->|[b [r [-> [Hb Hn]]]]]]|[-> | ->]]; try reflexivity. cbn [adigits]. destruct (beqb b x00) eqn:E0; [apply beqb_eq in E0; congruence|]. rewrite (len_char_false b Hb). reflexivity.
  - inversion H as [|? ? Hc Hw]; subst. assert (E : exists q', q = IByte c :: q' /\ adigits q' = (w, rest)).
    { destruct Hq as [[-> Hr]|[-> | ->]]; eexists; (split; [reflexivity|]); apply IH; auto. }
    destruct E as [q' [-> E]]. cbn [adigits]. rewrite (len_char_nul c Hc), (proj2 (len_char_test c) Hc), E. reflexivity.
Qed.
Lemma field_iff l w rest : length_field l w rest <-> exists d w' q, l = IByte d :: q /\ w = d :: w' /\ digit d /\ adigits q = (w', rest).
Proof.
  split.
  - intros [[d [w' [-> [Hd Hw]]]] Hl]. cbn [map app] in Hl. exists d, w'. destruct Hl as [[-> Hr]|[-> | ->]]; eexists; (split; [reflexivity|]); (split; [reflexivity|]); (split; [exact Hd|]); apply field_adigits; auto.
  - intros [d [w' [q [-> [-> [Hd E]]]]]]. pose proof (adigits_field q) as H. rewrite E in H. destruct H as [Hw H]. split; [eauto|]. cbn [map app]. destruct H as [[-> H]|[-> | ->]]; auto.
Qed.
Lemma field_scan l w rest ml rdy : length_field l w rest -> ascan ml rdy l = (Token MSGLEN w, parse_uint w, false, rest).
Proof.
  intros H. apply field_iff in H as [d [w' [q [-> [-> [Hd E]]]]]]. unfold ascan. cbn [aread next]. rewrite (proj2 (nonzero_digit d) Hd), E. reflexivity.
Qed.
Lemma parse_uint_slash d r : forall n, Forall digit d -> 0 <= n < 2 ^ 64 -> parse_uint_loop n (d ++ "/"%byte :: r) = (if dec_acc n d <? 2 ^ 64 then 0 else 2 ^ 64 - 1).
Proof.
  induction d as [|b d IH]; intros n Hd Hn; cbn [app parse_uint_loop dec_acc].
  - change ((48 <=? bN "/") && (bN "/" <=? 57))%N with false. destruct (Z.ltb_spec n (2 ^ 64)); [reflexivity|lia].
  - inversion Hd as [|? ? Hb Hd']; subst. rewrite (proj2 (digit_test b) Hb). unfold digit in Hb. replace (n * 10 + (Z.of_N (bN b) - 48)) with (10 * n + dig b) by (unfold dig; lia).
    assert (Hg : 0 <= dig b <= 9) by (unfold dig; lia). pose proof (dec_acc_mono d (10 * n + dig b) Hd' ltac:(lia)).
    change (2 ^ 64 / 10 + 1) with 1844674407370955162. destruct (Z.leb_spec 1844674407370955162 n); [destruct (Z.ltb_spec (dec_acc (10 * n + dig b) d) (2 ^ 64)); [lia|reflexivity]|].
    destruct (Z.leb_spec (2 ^ 64) (10 * n + dig b)); [destruct (Z.ltb_spec (dec_acc (10 * n + dig b) d) (2 ^ 64)); [lia|reflexivity]|]. apply IH; [exact Hd'|lia].
Qed.
Lemma announces_parse w n : announces w n -> n = parse_uint w.
Proof.
  intros [[H ->]|[d [r [-> [H ->]]]]]; [symmetry; apply parse_uint_dec, H|]. unfold dec. rewrite <- (parse_uint_slash d r 0 H) by lia. destruct d; reflexivity.
Qed.
Lemma parse_announces w : Forall len_char w -> announces w (parse_uint w).
Proof.
  intros H. assert (D : Forall digit w \/ exists d r, w = d ++ "/"%byte :: r /\ Forall digit d).
  { induction H as [|b w [Hb| ->] H [IH|[d [r [-> IH]]]]]; [left; constructor|left; constructor; assumption|right; exists (b :: d), r; split; [reflexivity|constructor; assumption]| |]; right; exists []; eexists; (split; [reflexivity|constructor]). }
  destruct D as [D|[d [r [-> D]]]]; [left; split; [exact D|apply parse_uint_dec, D]|]. right. exists d, r. split; [reflexivity|]. split; [exact D|]. unfold dec. rewrite <- (parse_uint_slash d r 0 D) by lia. destruct d; reflexivity.
Qed.
Lemma field_chars l w rest : length_field l w rest -> Forall len_char w.
Proof. intros [[d [w' [-> [Hd Hw]]]] _]. constructor; [left; exact Hd|exact Hw]. Qed.
(* the scanner finds what found says, unless a message may start here *)
Lemma scan_found ml rdy l t : found l t -> (rdy = false \/ forall r, l <> IByte "<" :: r) ->
  exists rdy' r, ascan ml rdy l = (t, match typ t with MSGLEN => parse_uint (tlit t) | _ => ml end, rdy', r).
Proof.
  intros H Hs. destruct H as [l H|r|l w rest H|b r H1 H2 H3].
  - destruct H as [->|[r [->| ->]]]; eexists _, _; reflexivity.
  - eexists _, _; reflexivity.
  - rewrite (field_scan l w rest ml rdy H). eexists _, _; reflexivity.
  - unfold ascan. cbn [aread next]. replace (is_nonzero_digit b) with false by (symmetry; apply not_true_iff_false; rewrite nonzero_digit; exact H3).
    replace (beqb b x00) with false by (symmetry; apply not_true_iff_false; rewrite beqb_eq; exact H1). replace (beqb b " ") with false by (symmetry; apply not_true_iff_false; rewrite beqb_eq; exact H2).
    replace (beqb b "<" && (0 <? ml) && rdy) with false; [eexists _, _; reflexivity|]. symmetry. destruct Hs as [->|Hs]; [apply andb_false_r|].
    replace (beqb b "<") with false; [reflexivity|]. symmetry. apply not_true_iff_false. rewrite beqb_eq. intros ->. exact (Hs r eq_refl).
Qed.
Lemma found_scan ml rdy l t ml' rdy' r : (rdy = false \/ forall r, l <> IByte "<" :: r) -> ascan ml rdy l = (t, ml', rdy', r) -> found l t.
Proof.
  intros Hs. unfold ascan. destruct (aread l) as [c q] eqn:Ea.
  destruct (is_nonzero_digit c) eqn:En.
  { intros E. injection E as <- <- <- <-. assert (El : l = IByte c :: q) by (unfold aread in Ea; destruct l as [|[b|] r']; cbn in Ea; injection Ea as <- <-; try discriminate; reflexivity).
    apply fd_length with (snd (adigits q)). apply field_iff. exists c, (fst (adigits q)), q. split; [exact El|]. split; [reflexivity|]. split; [apply nonzero_digit, En|]. destruct (adigits q); reflexivity. }
  destruct (beqb c x00) eqn:E0.
  { intros E. injection E as <- <- <- <-. apply fd_end. apply beqb_eq in E0. subst c. unfold aread in Ea. destruct l as [|[b|] r']; cbn in Ea; [left; reflexivity| |right; exists r'; auto]. right. exists r'. assert (b = x00) by congruence. subst b. auto. }
  assert (El : l = IByte c :: q) by (unfold aread in Ea; destruct l as [|[b|] r']; cbn in Ea; injection Ea as <- <-; try discriminate; reflexivity).
  destruct (beqb c " ") eqn:Es.
  { intros E. injection E as <- <- <- <-. apply beqb_eq in Es. subst c l. constructor. }
  assert (Hx : beqb c "<" && (0 <? ml) && rdy = false).
  { destruct Hs as [->|Hs]; [apply andb_false_r|]. replace (beqb c "<") with false; [reflexivity|]. symmetry. apply not_true_iff_false. rewrite beqb_eq. intros ->. exact (Hs q El). }
  rewrite Hx. intros E. injection E as <- <- <- <-. subst l. apply fd_other; [intros ->; discriminate|intros ->; discriminate|]. rewrite <- nonzero_digit. congruence.
Qed.
Lemma found_nolt l t : found l t -> (forall r, l <> IByte "<" :: r) -> forall u, tlit t <> "<"%byte :: u.
Proof.
  intros H Hl u. destruct H as [l H|r|l w rest H|b r H1 H2 H3]; cbn [tlit]; try discriminate.
  - destruct H as [[d [w' [-> [Hd _]]]] _]. intros E. injection E as -> _. destruct Hd as [Hd1 Hd2]. revert Hd2. vm_compute. congruence.
  - intros E. injection E as -> _. exact (Hl r eq_refl).
Qed.
Lemma no_message_scan n l t n' : 0 <= n < 2 ^ 64 -> no_message n l t n' -> exists rdy r, ascan n true l = (t, n', rdy, r)
  /\ is_typ SYSLOGMSG t = false /\ is_typ EOF t && (match tlit t with [] => false | _ => true end) = false /\ ((forall u, tlit t <> "<"%byte :: u) \/ Z.of_nat (length (tlit t)) <? to_int n' = false).
Proof.
  intros Hn H. destruct H as [r ->|r H|l w rest n' H Ha|l t H Ht Hl].
  - eexists _, _. split; [reflexivity|]. split; [reflexivity|]. split; [reflexivity|]. right. reflexivity.
  - unfold ascan. cbn [aread next]. change (is_nonzero_digit "<") with false. change (beqb "<" x00) with false. change (beqb "<" " ") with false. change (beqb "<" "<") with true.
    destruct (Z.ltb_spec 0 n); [|lia]. cbn [andb]. replace (to_int n <? 0) with true by (symmetry; apply Z.ltb_lt; unfold to_int; destruct (Z.ltb_spec n (2 ^ 63)); lia).
    eexists _, _. split; [reflexivity|]. split; [reflexivity|]. split; [reflexivity|]. left. discriminate.
  - rewrite (field_scan l w rest n true H), (announces_parse w n' Ha). eexists _, _. split; [reflexivity|]. split; [reflexivity|]. split; [reflexivity|]. left. cbn [tlit].
    destruct H as [[d [w' [-> [[Hd1 Hd2] _]]]] _]. intros u E. injection E as -> _. revert Hd2. vm_compute. congruence.
  - destruct (scan_found n true l t H (or_intror Hl)) as [rdy' [r E]]. exists rdy', r. rewrite E. split; [destruct (typ t); congruence|]. split; [|split; [|left; exact (found_nolt l t H Hl)]].
    + destruct H; reflexivity.
    + destruct H; reflexivity.
Qed.
Lemma malformed_classify max best l e : max < 2 ^ 63 - 20 -> malformed max best l e -> classify max best l = SBad e.
Proof.
  intros Hm H. unfold classify. destruct H as [l t Hf Ht|l w rest n Hw Ha Hn|l w rest n t Hw Ha Hn Hf Ht|l w rest n t n' Hw Ha Hn Hf].
  - destruct (scan_found 0 false l t Hf (or_introl eq_refl)) as [rdy [r ->]]. replace (is_typ MSGLEN t) with false by (destruct t as [[] ?]; cbn in *; congruence). reflexivity.
  - rewrite (field_scan l w rest _ _ Hw), <- (announces_parse w n Ha). cbn [is_typ typ negb]. apply Z.ltb_lt in Hn. rewrite to_int_of, Hn. reflexivity.
  - rewrite (field_scan l w rest _ _ Hw), <- (announces_parse w n Ha). cbn [is_typ typ negb]. apply Z.ltb_ge in Hn. rewrite to_int_of, Hn.
    destruct (scan_found n false rest t Hf (or_introl eq_refl)) as [rdy [r ->]]. destruct t as [[] u]; cbn [typ] in Ht; try (destruct (Ht eq_refl)); reflexivity.
  - rewrite (field_scan l w _ _ _ Hw), <- (announces_parse w n Ha). change (is_typ MSGLEN (Token MSGLEN w)) with true. cbn [negb]. apply Z.ltb_ge in Hn. rewrite to_int_of, Hn. rewrite ascan_space. change (is_typ WS (Token WS [" "%byte])) with true. cbn [negb].
    assert (Hr : 0 <= n < 2 ^ 64) by (rewrite (announces_parse w n Ha); pose proof (field_scan l w _ 0 false Hw) as E; eapply ascan_range; [|exact E]; lia).
    destruct (no_message_scan n rest t n' Hr Hf) as [rdy [r [-> [-> [-> H3]]]]]. f_equal. unfold no_message_error. change int_of with to_int. rewrite (andb_comm best). destruct H3 as [H3| ->]; [|reflexivity].
    rewrite (answer_no_lt best _ H3). reflexivity.
Qed.
Lemma classify_malformed max best l e : max < 2 ^ 63 - 20 -> classify max best l = SBad e -> malformed max best l e.
Proof.
  intros Hm. unfold classify. destruct (ascan 0 false l) as [[[t1 n1] rdy1] r1] eqn:E1. pose proof (found_scan _ _ _ _ _ _ _ (or_introl eq_refl) E1) as F1.
  assert (Hr : 0 <= n1 < 2 ^ 64) by (eapply ascan_range; [|exact E1]; lia).
  destruct (is_typ MSGLEN t1) eqn:Et1; cbn [negb].
  2:{ intros E. injection E as <-. apply ml_no_length; [exact F1|]. destruct t1 as [[] ?]; cbn in *; congruence. }
  assert (Hf : exists w, t1 = Token MSGLEN w /\ length_field l w r1 /\ announces w n1 /\ rdy1 = false).
  { destruct F1 as [l H|r|l w rest H|b r H1 H2 H3]; try discriminate. rewrite (field_scan l w rest _ _ H) in E1. injection E1 as <- <- <-. exists w. split; [reflexivity|]. split; [exact H|]. split; [|reflexivity]. apply parse_announces, (field_chars _ _ _ H). }
  destruct Hf as [w [-> [Hw [Ha ->]]]]. destruct (Z.ltb_spec max (to_int n1)) as [Hl|Hl].
  { intros E. injection E as <-. apply ml_too_long with w r1; assumption. }
  destruct (ascan n1 false r1) as [[[t2 n2] rdy2] r2] eqn:E2. pose proof (found_scan _ _ _ _ _ _ _ (or_introl eq_refl) E2) as F2.
  destruct (is_typ WS t2) eqn:Et2; cbn [negb].
  2:{ intros E. injection E as <-. apply ml_no_space with w r1 n1; try assumption. destruct t2 as [[] ?]; cbn in *; congruence. }
  destruct (ascan_ws_full _ _ _ _ _ _ _ E2 Et2) as [-> [-> ->]].
  destruct (ascan n1 true r2) as [[[t3 n3] rdy3] r3] eqn:E3. destruct (is_typ SYSLOGMSG t3) eqn:Et3; [discriminate|].
  destruct (is_typ EOF t3 && _) eqn:Ee; [discriminate|]. intros E. injection E as <-.
  assert (Hnm : no_message n1 r2 t3 n3 /\ ((forall u, tlit t3 <> "<"%byte :: u) \/ Z.of_nat (length (tlit t3)) <? to_int n3 = false)).
  { assert (D : (exists q, r2 = IByte "<" :: q) \/ forall q, r2 <> IByte "<" :: q).
    { destruct r2 as [|[b|] q]; try (right; discriminate). destruct (beqb b "<") eqn:Eb; [apply beqb_eq in Eb; subst b; eauto|]. right. intros q' E. injection E as -> _. discriminate. }
    destruct D as [[q ->]|D].
    - destruct (Z.eq_dec n1 0) as [->|Hn0].
      + unfold ascan in E3. cbn in E3. injection E3 as <- <- <- <-. split; [constructor; reflexivity|]. right. reflexivity.
      + destruct (Z.lt_ge_cases n1 (2 ^ 63)) as [Hlt|Hge].
        * exfalso. assert (Hx := ascan_third n1 _ _ _ _ _ ltac:(left; lia) E3). rewrite (ascan_lt n1 true q) in E3 by (try reflexivity; lia).
          destruct (take_bytes (Z.to_nat n1) _) as [[u k] q'] eqn:Eu. destruct (Z.to_nat n1) as [|nn] eqn:Ez; [lia|]. cbn [take_bytes] in Eu. destruct (take_bytes nn q) as [[u' k'] q'']. injection Eu as <- <- <-.
          destruct k'; injection E3 as <- <- <- <-; discriminate.
        * assert (E3' := E3). destruct (no_message_scan n1 _ _ _ Hr (nm_huge n1 q Hge)) as [rdy [r [E4 H4]]]. rewrite E4 in E3'. injection E3' as <- <- <- <-. split; [apply nm_huge; exact Hge|]. left. discriminate.
    - pose proof (found_scan _ _ _ _ _ _ _ (or_intror D) E3) as F3. split; [|left; exact (found_nolt _ _ F3 D)].
      destruct (scan_found n1 true r2 t3 F3 (or_intror D)) as [rdy [r E4]]. rewrite E4 in E3. injection E3 as <- <- <-.
      destruct (is_typ MSGLEN t3) eqn:Em.
      + destruct F3 as [l0 H|r0|l0 w0 rest0 H|b r0 H1 H2 H3]; try discriminate. cbn [typ tlit]. apply nm_length with rest0; [exact H|]. apply parse_announces, (field_chars _ _ _ H).
      + replace (match typ t3 with MSGLEN => parse_uint (tlit t3) | _ => n1 end) with n1 by (destruct t3 as [[] ?]; cbn in *; congruence). apply nm_other; [exact F3| |exact D]. destruct t3 as [[] ?]; cbn in *; congruence. }
  destruct Hnm as [Hnm Hlt].
  replace (if (Z.of_nat (length (tlit t3)) <? to_int n3) && best then match snd (answer best (tlit t3)) with Some x => EMachine x | None => EAfter t3 n3 end else EAfter t3 n3) with (no_message_error best t3 n3).
  - apply ml_no_message with w r2 n1; assumption.
  - unfold no_message_error. change int_of with to_int. rewrite (andb_comm best). destruct Hlt as [Hlt| ->]; [rewrite (answer_no_lt best _ Hlt)|]; reflexivity.
Qed.

(* ---------- the parser ---------- *)
Lemma fold_opts opts : forall p, let q := fold_left apply_opt opts p in
  p_best q = p_best p || opts_best opts /\ p_max q = fold_left (fun m o => match o with OMaxLength n => n | _ => m end) opts (p_max p) /\ p_stepback q = p_stepback p.
Proof.
  unfold opts_best. induction opts as [|o opts IH]; intros p; cbn [fold_left existsb]; [rewrite orb_false_r; auto|]. destruct (IH (apply_opt p o)) as [I1 [I2 I3]]. rewrite I1, I2, I3.
  destruct o; cbn [apply_opt p_best p_max p_stepback]; (split; [|auto]); try rewrite orb_true_r; reflexivity.
Qed.
Lemma new_parser_ok opts : p_best (new_parser opts) = opts_best opts /\ p_max (new_parser opts) = opts_max opts /\ p_stepback (new_parser opts) = false /\ pok (new_parser opts).
Proof.
  destruct (fold_opts opts (OParser 8192 (Scanner (Bufio [] 0 None None 0 []) 0 false) (new_machine false false) (Token ILLEGAL []) false false)) as [H1 [H2 H3]].
  unfold new_parser, set_p_internal, pok. cbn [p_best p_max p_stepback p_internal] in *. rewrite H1, H2, H3. cbn [orb]. repeat split.
Qed.
Lemma after_ok rds : forall p, p_stepback p = false -> pok p ->
  p_best (after_streams p rds) = p_best p /\ p_max (after_streams p rds) = p_max p /\ p_stepback (after_streams p rds) = false /\ pok (after_streams p rds).
Proof.
  induction rds as [|rd rds IH]; intros p H1 H2; cbn [after_streams]; [auto|].
  destruct (stream_spec_c p rd H1 H2) as [rs [p' [E [_ [S1 [S2 [S3 [S4 S5]]]]]]]]. rewrite E. destruct (IH p' S3) as [I1 [I2 [I3 I4]]].
  - destruct H2. unfold pok. split; congruence.
  - rewrite I1, I2. auto.
Qed.
(* the size of the buffer *)
Definition cap_of (max : Z) : Z := Z.max (add_int max 20) 16.
Lemma emitted_spec_c opts before rd : exists rs, emitted opts before rd = Some rs /\ crun (cap_of (opts_max opts)) (S (rd_size rd)) (opts_max opts) (opts_best opts) true (delivered rd) = Some rs.
Proof.
  destruct (new_parser_ok opts) as [N1 [N2 [N3 N4]]]. destruct (after_ok before (new_parser opts) N3 N4) as [A1 [A2 [A3 A4]]].
  destruct (stream_spec_c _ rd A3 A4) as [rs [p' [E1 [E2 _]]]]. exists rs. unfold emitted. rewrite E1. rewrite A1, A2, N1, N2 in E2. auto.
Qed.
Lemma emitted_spec opts before rd : opts_max opts < 2 ^ 63 - 20 -> exists rs, emitted opts before rd = Some rs /\ arun (S (rd_size rd)) (opts_max opts) (opts_best opts) true (delivered rd) = Some rs.
Proof.
  intros Hm. destruct (new_parser_ok opts) as [N1 [N2 [N3 N4]]]. destruct (after_ok before (new_parser opts) N3 N4) as [A1 [A2 [A3 A4]]].
  destruct (stream_spec (after_streams (new_parser opts) before) rd ltac:(rewrite A2, N2; exact Hm) A3 A4) as [rs [p' [E1 [E2 _]]]]. exists rs. unfold emitted. rewrite E1. rewrite A1, A2, N1, N2 in E2. auto.
Qed.

Lemma arun_outcome max best : max < 2 ^ 63 - 20 -> forall f first l rs, arun f max best first l = Some rs -> outcome max best first l rs.
Proof.
  intros Hm f. induction f as [|f IH]; intros first l rs H; [discriminate|]. cbn [arun] in H.
  destruct (ascan 0 false l) as [[[tok ml] rdy] r] eqn:E. pose proof (ascan_first _ _ _ _ _ E) as Hf.
  assert (Hend : is_typ EOF tok = true <-> at_end l) by (destruct Hf as [[_ [_ [_ [F1 [F2 _]]]]]|[_ [F _]]]; [rewrite F1; split; [discriminate|tauto]|exact F]).
  destruct (negb first && is_typ EOF tok) eqn:Ex.
  { injection H as <-. apply andb_true_iff in Ex as [Ex1 Ex2]. destruct first; [discriminate|]. apply out_end, Hend, Ex2. }
  rewrite (classify_abody _ _ _ l _ _ _ _ Hm E) in H. pose proof (classify_inv max best l Hm) as Hc. destruct (classify max best l) as [t r'|t n|e] eqn:Ec.
  - destruct Hc as [fr [Hf1 [<- ->]]]. destruct (snd (answer best (f_msg fr))) as [x|] eqn:Ea.
    + destruct best.
      * destruct (arun f max true false r') as [rs'|] eqn:Er; [|discriminate]. injection H as <-. apply out_frame; auto.
      * rewrite Ea in H. injection H as <-. apply out_bad_message; auto.
    + assert (H' : match arun f max best false r' with Some rs => Some (answer_result best (f_msg fr) :: rs) | None => None end = Some rs) by (destruct best; [exact H|rewrite Ea in H; exact H]).
      clear H. destruct (arun f max best false r') as [rs'|] eqn:Er; [|discriminate]. injection H' as <-. apply out_frame; auto.
  - destruct Hc as [ds [Ht ->]]. injection H as <-. apply (out_truncated max best first l ds t). exact Ht.
  - injection H as <-. apply out_malformed.
    + apply classify_malformed; assumption.
    + destruct first; [auto|]. right. cbn [negb andb] in Ex. rewrite <- Hend. congruence.
Qed.

(* C36-C42: what is emitted, for every reader *)
Theorem stream_outcome opts before rd : opts_max opts < 2 ^ 63 - 20 ->
  exists rs, emitted opts before rd = Some rs /\ outcome (opts_max opts) (opts_best opts) true (delivered rd) rs.
Proof.
  intros Hm. destruct (emitted_spec opts before rd Hm) as [rs [E1 E2]]. exists rs. split; [exact E1|]. eapply arun_outcome; eauto.
Qed.

(* ... and nothing else: the relation determines the results *)
Lemma outcome_arun max best first l rs : max < 2 ^ 63 - 20 -> outcome max best first l rs -> exists f, arun f max best first l = Some rs.
Proof.
  intros Hm H.
  assert (Hstep : forall f first l, (first = true \/ ~ at_end l) -> arun (S f) max best first l =
     match classify max best l with
     | SFrame t r => match best, snd (answer best t) with
                     | false, Some x => Some [Result None (Some (EMachine x))]
                     | _, _ => match arun f max best false r with Some rs => Some (answer_result best t :: rs) | None => None end end
     | STrunc t n => Some [if best then Result (fst (answer true t)) (Some (match snd (answer true t) with Some x => EMachine x | None => EAfter (Token EOF t) n end))
                           else Result None (Some (EAfter (Token EOF t) n))]
     | SBad e => Some [Result None (Some e)]
     end).
  { clear H first l rs. intros f first l Hl. cbn [arun]. destruct (ascan 0 false l) as [[[tok ml] rdy] r] eqn:E. pose proof (ascan_first _ _ _ _ _ E) as Hf.
    assert (Hx : negb first && is_typ EOF tok = false).
    { destruct Hl as [->|Hl]; [reflexivity|]. destruct Hf as [[_ [_ [_ [F1 _]]]]|[_ [F _]]]; [rewrite F1; apply andb_false_r|]. destruct (is_typ EOF tok); [destruct Hl; apply F; reflexivity|apply andb_false_r]. }
    rewrite Hx. rewrite (classify_abody _ _ _ l _ _ _ _ Hm E). destruct (classify max best l); destruct best; reflexivity. }
  assert (Hdig : forall d w r, digit d -> ~ at_end (map IByte (d :: w) ++ r)).
  { intros d w r Hd [H0|[q [H0|H0]]]; cbn [map app] in H0; try discriminate. injection H0 as -> _. destruct Hd as [Hd _]. revert Hd. vm_compute. congruence. }
  assert (Hfr : forall f rest, frame_ok max f -> ~ at_end (frame_items f ++ rest)).
  { intros f rest [F1 [F2 _]]. unfold frame_items. destruct (f_len f) as [|d w]; [congruence|]. inversion F2; subst. rewrite <- app_assoc. apply Hdig. assumption. }
  induction H as [first fr rest rs Hf Ha Ho IH|first fr rest e Hf Hb Ha|l He|first l ds t Ht|first l e H1 H3].
  - destruct IH as [f IH]. exists (S f). rewrite Hstep by (right; apply Hfr, Hf). rewrite (classify_frame max best fr rest Hm Hf), IH. destruct Ha as [->|Ha]; [reflexivity|]. rewrite Ha. destruct best; reflexivity.
  - exists 1%nat. rewrite Hstep by (right; apply Hfr, Hf). rewrite (classify_frame max best fr rest Hm Hf). subst best. rewrite Ha. reflexivity.
  - exists 1%nat. cbn [arun]. destruct He as [->|[r [->| ->]]]; reflexivity.
  - exists 1%nat. rewrite Hstep. { rewrite (classify_trunc max best l ds t Hm Ht). reflexivity. }
    right. destruct Ht as [T1 [T2 [_ [_ [gap [rest [-> _]]]]]]]. destruct ds as [|d w]; [congruence|]. inversion T2; subst. apply Hdig. assumption.
  - exists 1%nat. rewrite Hstep by exact H3. rewrite (malformed_classify max best l e Hm H1). reflexivity.
Qed.
Theorem stream_outcome_iff opts before rd rs : opts_max opts < 2 ^ 63 - 20 ->
  (emitted opts before rd = Some rs <-> outcome (opts_max opts) (opts_best opts) true (delivered rd) rs).
Proof.
  intros Hm. destruct (emitted_spec opts before rd Hm) as [rs' [E1 E2]]. rewrite E1. split.
  - intros E. injection E as <-. eapply arun_outcome; eauto.
  - intros H. destruct (outcome_arun _ _ _ _ _ Hm H) as [f Hf].
    pose proof (arun_more _ _ _ _ _ _ E2 (S (rd_size rd) + f)%nat ltac:(lia)) as H1. pose proof (arun_more _ _ _ _ _ _ Hf (S (rd_size rd) + f)%nat ltac:(lia)) as H2. congruence.
Qed.
(* the error of each malformed form *)
Example malformed_ex1 : emitted [] [] [(lit "x", None)] = Some [Result None (Some (EFound (Token ILLEGAL (lit "x")) MSGLEN))]. Proof. vm_compute. reflexivity. Qed.
Example malformed_ex2 : emitted [] [] [(lit "9000 <", None)] = Some [Result None (Some (ETooLong 9000 8192))]. Proof. vm_compute. reflexivity. Qed.
Example malformed_ex3 : emitted [] [] [(lit "16<1>1", None)] = Some [Result None (Some (EFound (Token ILLEGAL (lit "<")) WS))]. Proof. vm_compute. reflexivity. Qed.
Example malformed_ex4 : emitted [] [] [(lit "1/6 <1>1", None)] = Some [Result None (Some (EAfter (Token ILLEGAL (lit "<")) 0))]. Proof. vm_compute. reflexivity. Qed.
Example malformed_ex5 : emitted [] [] [(lit "16 17 <1>", None)] = Some [Result None (Some (EAfter (Token MSGLEN (lit "17")) 17))]
  /\ emitted [OBestEffort] [] [(lit "16 17 <1>", None)] = Some [Result None (Some (EMachine (PErr EPri 0)))]. Proof. split; vm_compute; reflexivity. Qed.
Example malformed_ex6 : malformed 8192 false (map IByte (lit "1/6 <1>1")) (EAfter (Token ILLEGAL (lit "<")) 0).
Proof.
  apply (ml_no_message 8192 false _ (lit "1/6") (map IByte (lit "<1>1")) 0 (Token ILLEGAL (lit "<")) 0).
  - split; [exists "1"%byte, (lit "/6"); split; [reflexivity|]; split; [split; vm_compute; congruence|constructor; [right; reflexivity|constructor; [left; split; vm_compute; congruence|constructor]]]|].
    left. split; [reflexivity|]. right. eexists _, _. split; [reflexivity|]. split; [rewrite <- len_char_test; discriminate|discriminate].
  - right. exists (lit "1"), (lit "6"). split; [reflexivity|]. split; [constructor; [split; vm_compute; congruence|constructor]|reflexivity].
  - vm_compute. congruence.
  - apply nm_zero. reflexivity.
Qed.

(* C42: Parse returns, whatever the reader does, and never panics; there are at most as many results as reads and bytes, plus one *)
Lemma outcome_length max best first l rs : outcome max best first l rs -> (length rs <= S (length l))%nat.
Proof.
  induction 1 as [first fr rest rs Hf Ha Ho IH|first fr rest e Hf Hb Ha|l He|first l ds t Ht|first l e H1 H3]; cbn [length]; try lia.
  rewrite app_length. unfold frame_items. rewrite !app_length. cbn [length]. lia.
Qed.
Theorem stream_total opts before rd : exists rs p, parse_stream (after_streams (new_parser opts) before) rd = Some (rs, p).
Proof.
  destruct (new_parser_ok opts) as [N1 [N2 [N3 N4]]]. destruct (after_ok before (new_parser opts) N3 N4) as [A1 [A2 [A3 A4]]].
  destruct (stream_spec_c _ rd A3 A4) as [rs [p' [E1 _]]]. eauto.
Qed.
Theorem stream_results_bounded opts before rd rs : opts_max opts < 2 ^ 63 - 20 -> emitted opts before rd = Some rs -> (length rs <= S (length (delivered rd)))%nat.
Proof. intros Hm E. destruct (stream_outcome opts before rd Hm) as [rs' [E1 E2]]. rewrite E in E1. injection E1 as <-. eapply outcome_length; eauto. Qed.

(* C43: reuse *)
Theorem stream_reuse opts before rd : emitted opts before rd = emitted opts [] rd.
Proof.
  destruct (emitted_spec_c opts before rd) as [rs [E1 E2]], (emitted_spec_c opts [] rd) as [rs' [E1' E2']]. congruence.
Qed.
(* even after a stream that ended in the middle of a frame *)
Example stream_reuse_ex : emitted [] [[(lit "16 <1>1 - - -", None)]] [(lit "16 <1>1 - - - - - -", None)] = emitted [] [] [(lit "16 <1>1 - - - - - -", None)].
Proof. vm_compute. reflexivity. Qed.

(* C37: only what the reader delivers matters *)
Theorem stream_depends_on_delivered opts rd1 rd2 : eqv (delivered rd1) (delivered rd2) -> emitted opts [] rd1 = emitted opts [] rd2.
Proof.
  intros H. destruct (emitted_spec_c opts [] rd1) as [rs1 [E1 R1]], (emitted_spec_c opts [] rd2) as [rs2 [E2 R2]]. rewrite E1, E2. f_equal.
  rewrite (crun_eqv _ _ _ _ true _ _ H) in R1.
  pose proof (crun_more _ _ _ _ _ _ _ R1 (S (rd_size rd1) + S (rd_size rd2))%nat ltac:(lia)) as R1'.
  pose proof (crun_more _ _ _ _ _ _ _ R2 (S (rd_size rd1) + S (rd_size rd2))%nat ltac:(lia)) as R2'. congruence.
Qed.
Lemma items_well_behaved rd : forall k pre, (0 < k <= 100)%nat -> (exists q, pre = q ++ repeat ([], None) (100 - k)) -> well_behaved (pre ++ rd) -> eqv (items k rd) (map IByte (content rd)).
Proof.
  unfold content. induction rd as [|[c e] rd IH]; intros k pre Hk [q Hq] Hw; [apply eqv_refl|]. destruct e as [e|].
  - assert (Hn : rd = []) by (destruct Hw as [W _]; eapply W; reflexivity). subst rd. rewrite items_err. cbn. rewrite app_nil_r. intros n. 
    destruct (Nat.lt_ge_cases n (length (map IByte c))); [rewrite app_nth1 by assumption; reflexivity|]. rewrite app_nth2 by assumption. rewrite (nth_overflow (map IByte c)) by assumption.
    destruct (n - length (map IByte c))%nat as [|[|]]; reflexivity.
  - cbn [map fst concat]. destruct c as [|b c].
    + cbn [app]. assert (Hk2 : (2 <= k)%nat).
      { destruct Hw as [_ W]. specialize (W q (repeat ([], None) (100 - k) ++ [([], None)]) rd). rewrite app_length, repeat_length in W. cbn [length] in W.
        enough (100 - k + 1 < 100)%nat by lia. apply W; [rewrite Hq, <- !app_assoc; reflexivity|]. apply Forall_app. split; [|repeat constructor].
        apply Forall_forall. intros x Hx. apply repeat_spec in Hx. exact Hx. }
      destruct k as [|[|k]]; [lia|lia|]. cbn [items]. apply (IH (S k) (pre ++ [([], None)])); [lia| |rewrite <- app_assoc; exact Hw].
      exists q. rewrite Hq, <- app_assoc. f_equal. replace (100 - S k)%nat with (S (100 - S (S k))) by lia. cbn [repeat]. rewrite repeat_cons. reflexivity.
    + rewrite items_bytes by discriminate. rewrite map_app. apply eqv_app. apply (IH 100%nat (pre ++ [(b :: c, None)])); [lia| |rewrite <- app_assoc; exact Hw].
      exists (pre ++ [(b :: c, None)]). rewrite Nat.sub_diag. cbn [repeat]. rewrite app_nil_r. reflexivity.
Qed.
Lemma delivered_well_behaved rd : well_behaved rd -> eqv (delivered rd) (map IByte (content rd)).
Proof. intros H. apply (items_well_behaved rd 100 []); [lia| |exact H]. exists []. rewrite Nat.sub_diag. reflexivity. Qed.
Theorem stream_chunking opts rd1 rd2 : well_behaved rd1 -> well_behaved rd2 -> content rd1 = content rd2 -> emitted opts [] rd1 = emitted opts [] rd2.
Proof.
  intros H1 H2 E. apply stream_depends_on_delivered. eapply eqv_trans; [apply delivered_well_behaved, H1|]. rewrite E. apply eqv_sym, delivered_well_behaved, H2.
Qed.
Lemma few_reads rd : (length rd < 100)%nat -> forallb (fun x : bytes * option rerr => match snd x with None => true | _ => false end) (removelast rd) = true -> well_behaved rd.
Proof.
  intros Hl H. split.
  - intros pre c e post ->. destruct post as [|x post]; [reflexivity|]. rewrite removelast_app in H by discriminate. rewrite forallb_app in H. cbn in H. rewrite andb_false_r in H. discriminate.
  - intros pre mid post -> _. rewrite !app_length in Hl. lia.
Qed.
(* a message split in the middle of its length and of its text, an empty read, and io.EOF together with the last byte *)
Example stream_chunking_ex : let rd := [(lit "1", None); ([], None); (lit "6 <1>1 -", None); (lit " - - - - -", Some REOF)] in
  well_behaved rd /\ emitted [] [] rd = Some [Result (Some (Message (Some 0) (Some 1) (Some 1) None None None None None None 1 None)) None].
Proof.
  cbv zeta. split; [apply few_reads; [cbn; lia|reflexivity]|vm_compute; reflexivity].
Qed.
(* the bound on empty reads is needed: a hundred empty reads in a row count as an error *)
Example stream_chunking_stall : let rd1 := [(lit "16 <1>1 - - - - - -", None)] in let rd2 := (lit "16 <1>1", None) :: repeat ([], None) 100 ++ [(lit " - - - - - -", None)] in
  content rd1 = content rd2 /\ emitted [] [] rd1 <> emitted [] [] rd2.
Proof. split; [reflexivity|]. vm_compute. discriminate. Qed.

(* ---------- frames, then something else ---------- *)
Lemma arun_frames max best : max < 2 ^ 63 - 20 -> forall fs f first rest rs, Forall (frame_ok max) fs -> (best = true \/ Forall (fun fr => snd (answer best (f_msg fr)) = None) fs) ->
  fs <> [] -> arun f max best first (frames_items fs ++ rest) = Some rs ->
  exists tail f', rs = map (fun fr => answer_result best (f_msg fr)) fs ++ tail /\ arun f' max best false rest = Some tail.
Proof.
  intros Hm fs. induction fs as [|fr fs IH]; intros f first rest rs Hok Ha Hne H; [congruence|]. inversion Hok as [|? ? H1 H2]; subst.
  unfold frames_items in H. cbn [map concat] in H. rewrite <- app_assoc in H. destruct f as [|f]; [discriminate|]. cbn [arun] in H.
  set (l := frame_items fr ++ _) in H. destruct (ascan 0 false l) as [[[tok ml] rdy] r] eqn:E. 
  assert (He : is_typ EOF tok = false).
  { destruct (ascan_first _ _ _ _ _ E) as [[_ [_ [_ [F1 _]]]]|[_ [_ F]]]; [exact F1|]. exfalso. destruct H1 as [G1 [G2 _]]. destruct (f_len fr) as [|d ds] eqn:El; [congruence|].
    inversion G2; subst. apply (F d (map IByte ds ++ f_gap fr ++ IByte " " :: map IByte (f_msg fr) ++ concat (map frame_items fs) ++ rest)); [|assumption].
    unfold l, frame_items. rewrite El. cbn [map app]. rewrite <- !app_assoc. reflexivity. }
  rewrite He, andb_false_r in H. rewrite (classify_abody _ _ _ l _ _ _ _ Hm E) in H. unfold l in H. rewrite (classify_frame _ _ _ _ Hm H1) in H.
  assert (H' : match arun f max best false (concat (map frame_items fs) ++ rest) with Some rs => Some (answer_result best (f_msg fr) :: rs) | None => None end = Some rs).
  { destruct Ha as [->|Ha]; [exact H|]. inversion Ha as [|? ? A1 A2]; subst. destruct best; [exact H|]. rewrite A1 in H. exact H. }
  clear H. destruct (arun f max best false (concat (map frame_items fs) ++ rest)) as [rs'|] eqn:Er; [|discriminate]. injection H' as <-.
  destruct fs as [|fr2 fs].
  - exists rs', f. split; [reflexivity|exact Er].
  - destruct (IH f false rest rs' H2) as [tail [f' [T1 T2]]]; [destruct Ha as [->|Ha]; [auto|right; inversion Ha; assumption]|discriminate|exact Er|].
    exists tail, f'. split; [|exact T2]. rewrite T1. reflexivity.
Qed.
(* every complete frame gets its own result, equal to what the RFC 5424 machine answers for its message, until a strict parser
   meets an invalid message; what follows the frames is treated as by a parser that has emitted something already *)
Theorem frames_then_rest opts before rd fs rest : opts_max opts < 2 ^ 63 - 20 -> eqv (delivered rd) (frames_items fs ++ rest) ->
  fs <> [] -> Forall (frame_ok (opts_max opts)) fs -> (opts_best opts = true \/ Forall (fun fr => snd (answer (opts_best opts) (f_msg fr)) = None) fs) ->
  exists tail, emitted opts before rd = Some (map (fun fr => answer_result (opts_best opts) (f_msg fr)) fs ++ tail) /\ outcome (opts_max opts) (opts_best opts) false rest tail.
Proof.
  intros Hm Hd Hne Hok Ha. destruct (emitted_spec opts before rd Hm) as [rs [E1 E2]]. rewrite (arun_eqv _ _ _ _ _ _ Hd) in E2.
  destruct (arun_frames _ _ Hm fs _ _ _ _ Hok Ha Hne E2) as [tail [f' [T1 T2]]]. exists tail. rewrite E1, T1. split; [reflexivity|]. eapply arun_outcome; eauto.
Qed.

(* the plain frames of RFC 5425 *)
Definition plain_frame (max : Z) (f : frame) : Prop := frame_ok max f /\ f_gap f = [].
Lemma frames_text max fs : Forall (plain_frame max) fs -> frames_items fs = map IByte (concat (map frame_text fs)).
Proof.
  induction fs as [|f fs IH]; intros H; [reflexivity|]. inversion H as [|? ? [H1 H2] H3]; subst. unfold frames_items in *. cbn [map concat]. rewrite (IH H3).
  unfold frame_items, frame_text. rewrite H2. cbn [app]. rewrite !map_app. reflexivity.
Qed.
Lemma plain_ok max fs : Forall (plain_frame max) fs -> Forall (frame_ok max) fs. Proof. apply Forall_impl. intros f [H _]. exact H. Qed.

(* C36, C40: a stream of well-formed frames, however it is split *)
Theorem well_formed_stream opts before rd fs : opts_max opts < 2 ^ 63 - 20 -> well_behaved rd -> content rd = concat (map frame_text fs) -> fs <> [] ->
  Forall (plain_frame (opts_max opts)) fs -> (opts_best opts = true \/ Forall (fun fr => snd (answer (opts_best opts) (f_msg fr)) = None) fs) ->
  emitted opts before rd = Some (map (fun fr => answer_result (opts_best opts) (f_msg fr)) fs).
Proof.
  intros Hm Hw Hc Hne Hok Ha.
  assert (Hd : eqv (delivered rd) (frames_items fs ++ [])). { rewrite app_nil_r, (frames_text _ _ Hok), <- Hc. apply delivered_well_behaved, Hw. }
  destruct (emitted_spec opts before rd Hm) as [rs [E1 E2]]. rewrite (arun_eqv _ _ _ _ _ _ Hd) in E2.
  destruct (arun_frames _ _ Hm fs _ _ _ _ (plain_ok _ _ Hok) Ha Hne E2) as [tail [f' [T1 T2]]]. rewrite E1, T1. destruct f' as [|f']; [discriminate|]. cbn in T2. injection T2 as <-. rewrite app_nil_r. reflexivity.
Qed.
(* C40: best effort: an invalid message yields its error, and the next frame is still parsed *)
Theorem best_effort_survives opts before rd fs : opts_max opts < 2 ^ 63 - 20 -> opts_best opts = true -> well_behaved rd -> content rd = concat (map frame_text fs) -> fs <> [] ->
  Forall (plain_frame (opts_max opts)) fs -> emitted opts before rd = Some (map (fun fr => answer_result true (f_msg fr)) fs).
Proof. intros Hm Hb Hw Hc Hne Hok. rewrite (well_formed_stream opts before rd fs) by auto. rewrite Hb. reflexivity. Qed.
(* C36: strict, a bad message: the results of the frames before it, its error, and nothing else *)
Theorem strict_stops opts before rd fs fr rest e : opts_max opts < 2 ^ 63 - 20 -> opts_best opts = false -> eqv (delivered rd) (frames_items fs ++ frame_items fr ++ rest) ->
  Forall (frame_ok (opts_max opts)) fs -> Forall (fun fr => snd (answer false (f_msg fr)) = None) fs -> frame_ok (opts_max opts) fr -> snd (answer false (f_msg fr)) = Some e ->
  emitted opts before rd = Some (map (fun fr => answer_result false (f_msg fr)) fs ++ [Result None (Some (EMachine e))]).
Proof.
  intros Hm Hb Hd Hok Ha Hfr He. destruct (emitted_spec opts before rd Hm) as [rs [E1 E2]]. rewrite (arun_eqv _ _ _ _ _ _ Hd), Hb in E2.
  assert (Hone : forall f first rs, arun f (opts_max opts) false first (frame_items fr ++ rest) = Some rs -> rs = [Result None (Some (EMachine e))]).
  { clear - Hm Hfr He. intros f first rs H. destruct f as [|f]; [discriminate|]. cbn [arun] in H. destruct (ascan 0 false _) as [[[tok ml] rdy] r] eqn:E.
    assert (Ht : is_typ EOF tok = false).
    { destruct (ascan_first _ _ _ _ _ E) as [[_ [_ [_ [F1 _]]]]|[_ [_ F]]]; [exact F1|]. exfalso. destruct Hfr as [G1 [G2 _]]. unfold frame_items in F. destruct (f_len fr) as [|d ds]; [congruence|].
      inversion G2; subst. cbn [map app] in F. eapply F; [reflexivity|assumption]. }
    rewrite Ht, andb_false_r, (classify_abody _ _ _ _ _ _ _ _ Hm E), (classify_frame _ _ _ _ Hm Hfr), He in H. congruence. }
  destruct fs as [|f0 fs].
  - cbn [frames_items map concat app] in E2. apply Hone in E2. rewrite E1, E2. reflexivity.
  - destruct (arun_frames _ _ Hm (f0 :: fs) _ _ _ _ Hok (or_intror Ha) ltac:(discriminate) E2) as [tail [f' [T1 T2]]]. rewrite E1, T1. apply Hone in T2. rewrite T2. reflexivity.
Qed.
Lemma example_frame max msg : 16 <= max -> length msg = 16%nat -> (exists t, msg = "<"%byte :: t) -> plain_frame max (Frame (lit "16") [] msg).
Proof.
  intros Hm Hl Ht. split; [|reflexivity]. unfold frame_ok. cbn [f_len f_gap f_msg]. rewrite Hl. change (dec (lit "16")) with 16. split; [discriminate|]. split; [|auto].
  change (lit "16") with ["1"; "6"]%byte. apply Forall_cons; [unfold digit; change (bN "1") with 49%N; lia|]. apply Forall_cons; [unfold digit; change (bN "6") with 54%N; lia|]. apply Forall_nil.
Qed.
Example well_formed_stream_ex : let fs := [Frame (lit "16") [] (lit "<1>1 - - - - - -"); Frame (lit "16") [] (lit "<2>1 - - - - - -")] in
  Forall (plain_frame 8192) fs /\ Forall (fun fr => snd (answer false (f_msg fr)) = None) fs
  /\ concat (map frame_text fs) = lit "16 <1>1 - - - - - -16 <2>1 - - - - - -".
Proof.
  cbv zeta. split; [repeat apply Forall_cons; try apply Forall_nil; (apply example_frame; [lia|reflexivity|eexists; reflexivity])|].
  split; [|reflexivity]. repeat apply Forall_cons; try apply Forall_nil; vm_compute; reflexivity.
Qed.
(* an empty stream is an error *)
Theorem empty_stream opts before rd : well_behaved rd -> content rd = [] -> emitted opts before rd = Some [Result None (Some (EFound (Token EOF []) MSGLEN))].
Proof.
  intros Hw Hc. destruct (emitted_spec_c opts before rd) as [rs [E1 E2]]. pose proof (delivered_well_behaved rd Hw) as Hd. rewrite Hc in Hd. rewrite (crun_eqv _ _ _ _ _ _ _ Hd) in E2. cbn in E2. congruence.
Qed.

(* ---------- C38 ---------- *)
(* a frame announcing more than the maximum: the error, and no more *)
Theorem too_long opts before rd fs ds rest : opts_max opts < 2 ^ 63 - 20 -> eqv (delivered rd) (frames_items fs ++ map IByte ds ++ rest) ->
  Forall (frame_ok (opts_max opts)) fs -> (opts_best opts = true \/ Forall (fun fr => snd (answer (opts_best opts) (f_msg fr)) = None) fs) ->
  ds <> [] -> Forall digit ds -> number_ends rest -> opts_max opts < dec ds < 2 ^ 63 ->
  emitted opts before rd = Some (map (fun fr => answer_result (opts_best opts) (f_msg fr)) fs ++ [Result None (Some (ETooLong (dec ds) (opts_max opts)))]).
Proof.
  intros Hm Hd Hok Ha Hne Hds Hends Hlen. destruct (emitted_spec opts before rd Hm) as [rs [E1 E2]]. rewrite (arun_eqv _ _ _ _ _ _ Hd) in E2.
  assert (Hone : forall f first rs, arun f (opts_max opts) (opts_best opts) first (map IByte ds ++ rest) = Some rs -> rs = [Result None (Some (ETooLong (dec ds) (opts_max opts)))]).
  { clear - Hm Hne Hds Hends Hlen. intros f first rs H. destruct f as [|f]; [discriminate|]. cbn [arun] in H.
    assert (Es : exists r, ascan 0 false (map IByte ds ++ rest) = (Token MSGLEN ds, dec ds, false, r)).
    { destruct ds as [|d ds]; [congruence|]. inversion Hds as [|? ? Hd1 Hd2]; subst. unfold ascan. cbn [map app aread next]. rewrite (proj2 (nonzero_digit d) Hd1).
      rewrite (adigits_stop ds rest Hd2 Hends). rewrite (parse_uint_dec _ Hds), Z.min_l by lia. eauto. }
    destruct Es as [r Es]. rewrite Es in H. cbn [is_typ typ] in H. rewrite andb_false_r in H. unfold abody in H. cbn [is_typ typ negb] in H.
    assert (H0 : 0 <= dec ds) by (unfold dec; apply dec_acc_mono; [exact Hds|lia]). rewrite to_int_id in H by lia. destruct (Z.ltb_spec (opts_max opts) (dec ds)); [congruence|lia]. }
  destruct fs as [|f0 fs].
  - cbn [frames_items map concat app] in E2. apply Hone in E2. rewrite E1, E2. reflexivity.
  - destruct (arun_frames _ _ Hm (f0 :: fs) _ _ _ _ Hok Ha ltac:(discriminate) E2) as [tail [f' [T1 T2]]]. rewrite E1, T1. apply Hone in T2. rewrite T2. reflexivity.
Qed.
Example too_long_ex : emitted [OMaxLength 16] [] [(lit "16 <1>1 - - - - - -17 <2>1 - - - - - - a", None)]
  = Some [answer_result false (lit "<1>1 - - - - - -"); Result None (Some (ETooLong 17 16))].
Proof. vm_compute. reflexivity. Qed.
(* a length of 2^63 or more is not reported as too long: it becomes negative as an int *)
Theorem huge_length_refuted : exists opts rd, opts_max opts < dec (lit "9223372036854775808") /\ content rd = lit "9223372036854775808 <1>1 - - - - - -" /\ well_behaved rd
  /\ emitted opts [] rd = Some [Result None (Some (EAfter (Token EOF []) 9223372036854775808))].
Proof.
  exists [], [(lit "9223372036854775808 <1>1 - - - - - -", None)]. split; [reflexivity|]. split; [reflexivity|]. split; [apply few_reads; [cbn; lia|reflexivity]|vm_compute; reflexivity].
Qed.
Lemma outcome_messages max best first l rs : outcome max best first l rs -> forall r m, In r rs -> r_msg r = Some m ->
  exists data, Z.of_nat (length data) <= max /\ fst (answer best data) = Some m /\ exists pre post, l = pre ++ map IByte data ++ post.
Proof.
  induction 1 as [first fr rest rs Hf Ha Ho IH|first fr rest e Hf Hb Ha|l He|first l ds t Ht|first l e H1 H3]; intros r m Hin Hr; cbn [In] in Hin.
  - destruct Hin as [<-|Hin].
    + exists (f_msg fr). destruct Hf as [F1 [F2 [F3 [F4 _]]]]. split; [lia|]. split; [exact Hr|]. unfold frame_items.
      exists (map IByte (f_len fr) ++ f_gap fr ++ [IByte " "]), rest. rewrite <- !app_assoc. reflexivity.
    + destruct (IH r m Hin Hr) as [data [I1 [I2 [pre [post I3]]]]]. exists data. split; [exact I1|]. split; [exact I2|]. exists (frame_items fr ++ pre), post. rewrite I3, <- app_assoc. reflexivity.
  - destruct Hin as [<-|[]]. discriminate.
  - destruct Hin.
  - destruct Hin as [<-|[]]. unfold truncated_result in Hr. destruct best; [|discriminate]. destruct Ht as [T1 [T2 [T3 [T4 [gap [rest [T5 T6]]]]]]]. exists t. split; [lia|]. split; [exact Hr|].
    exists (map IByte ds ++ gap ++ [IByte " "]), rest. rewrite T5, <- !app_assoc. reflexivity.
  - destruct Hin as [<-|[]]. discriminate.
Qed.
(* no message longer than the maximum is ever parsed *)
Theorem messages_within_max opts before rd rs r m : opts_max opts < 2 ^ 63 - 20 -> emitted opts before rd = Some rs -> In r rs -> r_msg r = Some m ->
  exists data, Z.of_nat (length data) <= opts_max opts /\ fst (answer (opts_best opts) data) = Some m /\ exists pre post, delivered rd = pre ++ map IByte data ++ post.
Proof.
  intros Hm E. destruct (stream_outcome opts before rd Hm) as [rs' [E1 E2]]. rewrite E in E1. injection E1 as <-. eapply outcome_messages; eauto.
Qed.

(* ---------- C39 ---------- *)
Lemma outcome_strict max first l rs : outcome max false first l rs ->
  exists good tail, rs = good ++ tail /\ Forall (fun r => r_err r = None /\ r_msg r <> None) good /\ (tail = [] \/ exists e, tail = [Result None (Some e)]).
Proof.
  induction 1 as [first fr rest rs Hf Ha Ho IH|first fr rest e Hf Hb Ha|l He|first l ds t Ht|first l e H1 H3].
  - destruct IH as [good [tail [-> [I2 I3]]]]. exists (answer_result false (f_msg fr) :: good), tail. split; [reflexivity|]. split; [|exact I3]. constructor; [|exact I2].
    unfold answer_result. cbn [r_err r_msg]. destruct Ha as [Ha|Ha]; [discriminate|]. pose proof (answer_cases false (f_msg fr)) as Hc. destruct (answer false (f_msg fr)) as [[m|] [x|]]; cbn [fst snd] in *; try discriminate; try tauto.
    split; [reflexivity|discriminate].
  - exists [], [Result None (Some (EMachine e))]. split; [reflexivity|]. split; [constructor|eauto].
  - exists [], []. auto.
  - exists [], [truncated_result false ds t]. split; [reflexivity|]. split; [constructor|]. right. eexists. reflexivity.
  - exists [], [Result None (Some e)]. split; [reflexivity|]. split; [constructor|eauto].
Qed.
Theorem strict_one_error opts before rd rs : opts_max opts < 2 ^ 63 - 20 -> opts_best opts = false -> emitted opts before rd = Some rs ->
  exists good tail, rs = good ++ tail /\ Forall (fun r => r_err r = None /\ r_msg r <> None) good /\ (tail = [] \/ exists e, tail = [Result None (Some e)]).
Proof.
  intros Hm Hb E. destruct (stream_outcome opts before rd Hm) as [rs' [E1 E2]]. rewrite E in E1. injection E1 as <-. rewrite Hb in E2. eapply outcome_strict; eauto.
Qed.
Example strict_one_error_ex : emitted [] [] [(lit "16 <1>1 - - - - - -16 <2>x - - - - - -16 <3>1 - - - - - -", None)]
  = Some [answer_result false (lit "<1>1 - - - - - -"); Result None (Some (EMachine (PErr EVersion 3)))]
  /\ emitted [OBestEffort] [] [(lit "16 <1>1 - - - - - -16 <2>x - - - - - -16 <3>1 - - - - - -", None)]
  = Some [answer_result true (lit "<1>1 - - - - - -"); answer_result true (lit "<2>x - - - - - -"); answer_result true (lit "<3>1 - - - - - -")].
Proof. split; vm_compute; reflexivity. Qed.

(* ---------- C41 ---------- *)
Definition no_error (rs : list result) : Prop := Forall (fun r => r_err r = None) rs.
Lemma outcome_silent max best first l rs : outcome max best first l rs -> no_error rs ->
  exists fs rest, l = frames_items fs ++ rest /\ Forall (frame_ok max) fs /\ at_end rest /\ rs = map (fun fr => answer_result best (f_msg fr)) fs /\ (first = true -> fs <> [])
   /\ Forall (fun fr => snd (answer best (f_msg fr)) = None) fs.
Proof.
  induction 1 as [first fr rest rs Hf Ha Ho IH|first fr rest e Hf Hb Ha|l He|first l ds t Ht|first l e H1 H3]; intros Hn.
  - inversion Hn as [|? ? N1 N2]; subst. destruct (IH N2) as [fs [rest' [I1 [I2 [I3 [I4 [I5 I6]]]]]]]. exists (fr :: fs), rest'. unfold frames_items. cbn [map concat]. rewrite <- app_assoc.
    fold (frames_items fs). rewrite <- I1, I4. split; [reflexivity|]. split; [constructor; assumption|]. split; [exact I3|]. split; [reflexivity|]. split; [discriminate|]. constructor; [|exact I6].
    cbn [r_err answer_result] in N1. destruct (snd (answer best (f_msg fr))); [discriminate|reflexivity].
  - inversion Hn; discriminate.
  - exists [], l. split; [reflexivity|]. split; [constructor|]. split; [exact He|]. split; [reflexivity|]. split; [discriminate|constructor].
  - inversion Hn as [|? ? N1 _]; subst. unfold truncated_result in N1. destruct best; discriminate.
  - inversion Hn; discriminate.
Qed.
Lemma at_end_eqv l1 l2 : eqv l1 l2 -> at_end l1 -> at_end l2.
Proof.
  intros H Hl. specialize (H 0%nat). destruct l2 as [|[b|] r]; [left; reflexivity| |right; eauto]. destruct Hl as [->|[q [->| ->]]]; cbn in H; try discriminate. injection H as <-. right. eauto.
Qed.
(* exactly when no error is emitted: valid frames, at least one, and then the end, a read error or a NUL byte *)
Theorem silent_iff opts before rd : opts_max opts < 2 ^ 63 - 20 ->
  (exists rs, emitted opts before rd = Some rs /\ no_error rs) <->
  exists fs rest, eqv (delivered rd) (frames_items fs ++ rest) /\ fs <> [] /\ at_end rest /\ Forall (frame_ok (opts_max opts)) fs /\ Forall (fun fr => snd (answer (opts_best opts) (f_msg fr)) = None) fs.
Proof.
  intros Hm. split.
  - intros [rs [E Hn]]. destruct (stream_outcome opts before rd Hm) as [rs' [E1 E2]]. rewrite E in E1. injection E1 as <-.
    destruct (outcome_silent _ _ _ _ _ E2 Hn) as [fs [rest [I1 [I2 [I3 [I4 [I5 I6]]]]]]]. exists fs, rest. rewrite I1. split; [apply eqv_refl|]. auto.
  - intros [fs [rest [H1 [H2 [H3 [H4 H5]]]]]]. destruct (emitted_spec opts before rd Hm) as [rs [E1 E2]]. rewrite (arun_eqv _ _ _ _ _ _ H1) in E2.
    destruct (arun_frames _ _ Hm fs _ _ _ _ H4 (or_intror H5) H2 E2) as [tail [f' [T1 T2]]]. exists rs. split; [exact E1|].
    assert (tail = []). { destruct f' as [|f']; [discriminate|]. cbn [arun] in T2. destruct (ascan 0 false rest) as [[[tok ml] rdy] r] eqn:E. destruct (ascan_first _ _ _ _ _ E) as [[_ [_ [_ [_ [F _]]]]]|[_ [F _]]]; [tauto|]. rewrite (proj2 F H3) in T2. cbn in T2. congruence. }
    subst tail. rewrite app_nil_r in T1. subst rs. unfold no_error. apply Forall_map. apply Forall_impl with (2 := H5). intros fr Hfr. unfold answer_result. cbn [r_err]. rewrite Hfr. reflexivity.
Qed.
(* so a NUL byte, or a read error, after a frame hides everything that follows *)
Theorem silent_loss_nul_refuted : exists rd fs, well_behaved rd /\ content rd = frame_text (Frame (lit "16") [] (lit "<1>1 - - - - - -")) ++ x00 :: frame_text (Frame (lit "16") [] (lit "<2>1 - - - - - -"))
  /\ emitted [] [] rd = Some (map (fun fr => answer_result false (f_msg fr)) fs) /\ fs = [Frame (lit "16") [] (lit "<1>1 - - - - - -")].
Proof.
  exists [(lit "16 <1>1 - - - - - -" ++ x00 :: lit "16 <2>1 - - - - - -", None)], [Frame (lit "16") [] (lit "<1>1 - - - - - -")].
  split; [apply few_reads; [cbn; lia|reflexivity]|split; [reflexivity|split; [vm_compute; reflexivity|reflexivity]]].
Qed.
Theorem silent_loss_error_refuted : exists code rd fs, rd = [(lit "16 <1>1 - - - - - -", Some (ROther code)); (lit "16 <2>1 - - - - - -", None)]
  /\ emitted [] [] rd = Some (map (fun fr => answer_result false (f_msg fr)) fs) /\ fs = [Frame (lit "16") [] (lit "<1>1 - - - - - -")].
Proof. exists 1%N. eexists _, _. split; [reflexivity|]. split; [|reflexivity]. vm_compute. reflexivity. Qed.

Lemma map_IByte_inj a b : map IByte a = map IByte b -> a = b.
Proof. revert b. induction a as [|x a IH]; intros [|y b] H; try discriminate; [reflexivity|]. cbn in H. injection H as -> H. rewrite (IH b H). reflexivity. Qed.
(* without NUL bytes and read errors nothing is lost: no error means that the stream was frames to its very end *)
Theorem no_silent_loss opts before rd rs : opts_max opts < 2 ^ 63 - 20 -> well_behaved rd -> ~ In x00 (content rd) -> emitted opts before rd = Some rs -> no_error rs ->
  exists fs, content rd = concat (map frame_text fs) /\ Forall (plain_frame (opts_max opts)) fs /\ rs = map (fun fr => answer_result (opts_best opts) (f_msg fr)) fs.
Proof.
  intros Hm Hw Hz E Hn.
  assert (E0 : emitted opts before [(content rd, None)] = Some rs).
  { rewrite stream_reuse. rewrite stream_reuse in E. rewrite <- E. apply stream_depends_on_delivered. eapply eqv_trans; [|apply eqv_sym, delivered_well_behaved, Hw].
    destruct (content rd) as [|b c]; [cbn; apply eqv_refl|]. unfold delivered. rewrite items_bytes by discriminate. cbn [items]. rewrite app_nil_r. apply eqv_refl. }
  destruct (stream_outcome opts before [(content rd, None)] Hm) as [rs' [E1 E2]]. rewrite E0 in E1. injection E1 as <-.
  destruct (outcome_silent _ _ _ _ _ E2 Hn) as [fs [rest [I1 [I2 [I3 [I4 [I5 _]]]]]]]. exists fs.
  assert (Hd : delivered [(content rd, None)] = map IByte (content rd)).
  { destruct (content rd) as [|b c] eqn:Ec; [|unfold delivered; rewrite items_bytes by discriminate; cbn [items]; apply app_nil_r].
    exfalso. unfold delivered in I1. cbn in I1. destruct fs as [|f fs]; [destruct (I5 eq_refl eq_refl)|]. inversion I2 as [|? ? [F1 _] _]; subst. unfold frames_items in I1. cbn [map concat] in I1. unfold frame_items in I1 at 1.
    destruct (f_len f); [congruence|discriminate]. }
  rewrite Hd in I1. 
  assert (Hni : forall x, In x (frames_items fs ++ rest) -> exists b, x = IByte b /\ b <> x00).
  { rewrite <- I1. intros x Hx. apply in_map_iff in Hx as [b [<- Hb]]. exists b. split; [reflexivity|]. intros ->. exact (Hz Hb). }
  assert (Hrest : rest = []).
  { destruct I3 as [->|[r [->| ->]]]; [reflexivity| |]; (destruct (Hni _ ltac:(apply in_or_app; right; left; reflexivity)) as [b [Hb1 Hb2]]; [try discriminate; injection Hb1 as <-; congruence]). }
  subst rest. rewrite app_nil_r in *.
  assert (Hp : Forall (plain_frame (opts_max opts)) fs).
  { apply Forall_forall. intros f Hf. rewrite Forall_forall in I2. split; [apply I2; exact Hf|]. destruct (I2 f Hf) as [_ [_ [_ [_ [_ G]]]]].
    assert (Hg : forall x, In x (f_gap f) -> exists b, x = IByte b /\ b <> x00).
    { intros x Hx. apply Hni. unfold frames_items. apply in_concat. exists (frame_items f). split; [apply in_map; exact Hf|]. unfold frame_items. apply in_or_app. right. apply in_or_app. left. exact Hx. }
    destruct G as [G|[G|G]]; [exact G| |]; rewrite G in Hg; destruct (Hg _ (or_introl eq_refl)) as [b [Hb1 Hb2]]; [injection Hb1 as <-; congruence|discriminate]. }
  split; [|auto]. apply map_IByte_inj. rewrite I1. apply (frames_text _ _ Hp).
Qed.

(* C52: HasBestEffort, and what the options mean *)
Theorem octet_options opts before : has_best_effort (after_streams (new_parser opts) before) = existsb (fun o => match o with OBestEffort => true | _ => false end) opts.
Proof.
  destruct (new_parser_ok opts) as [N1 [N2 [N3 N4]]]. destruct (after_ok before (new_parser opts) N3 N4) as [A1 _]. unfold has_best_effort. rewrite A1, N1. reflexivity.
Qed.
Theorem octet_options_order opts opts' rd : opts_max opts = opts_max opts' -> opts_best opts = opts_best opts' -> emitted opts [] rd = emitted opts' [] rd.
Proof. intros H1 H2. destruct (emitted_spec_c opts [] rd) as [rs [E1 E2]], (emitted_spec_c opts' [] rd) as [rs' [E1' E2']]. rewrite H1, H2 in E2. congruence. Qed.

(* C38, any announced length above the maximum, however large: one error, no message, and nothing after it *)
Lemma number_ends_gap g r : gap_ok g -> number_ends (g ++ IByte " " :: r).
Proof. intros [-> | [-> | ->]] b q H; cbn in H; try discriminate; injection H as <- _; rewrite <- len_char_test; discriminate. Qed.
Theorem over_max_stops opts before rd fs ds rest : opts_max opts < 2 ^ 63 - 20 -> eqv (delivered rd) (frames_items fs ++ map IByte ds ++ rest) ->
  Forall (frame_ok (opts_max opts)) fs -> (opts_best opts = true \/ Forall (fun fr => snd (answer (opts_best opts) (f_msg fr)) = None) fs) ->
  ds <> [] -> Forall digit ds -> number_ends rest -> opts_max opts < dec ds ->
  exists e, emitted opts before rd = Some (map (fun fr => answer_result (opts_best opts) (f_msg fr)) fs ++ [Result None (Some e)]).
Proof.
  intros Hm Hd Hok Ha Hne Hds Hends Hlen.
  assert (Hone : forall first rs, outcome (opts_max opts) (opts_best opts) first (map IByte ds ++ rest) rs -> exists e, rs = [Result None (Some e)]).
  { intros first rs H. assert (Hu : forall ds' g r, Forall digit ds' -> gap_ok g -> map IByte ds ++ rest = map IByte ds' ++ g ++ IByte " " :: r -> ds' = ds).
    { intros ds' g r H1 H2 E. apply (f_equal (fun l => fst (adigits l))) in E. rewrite (adigits_stop ds rest Hds Hends), (adigits_stop ds' _ H1 (number_ends_gap g r H2)) in E. congruence. }
    remember (map IByte ds ++ rest) as l0 eqn:El. destruct H as [first fr rest' rs' Hf _ _|first fr rest' e Hf _ _|l He|first l d t Ht|first l e _ _].
    - destruct Hf as [_ [F2 [_ [F4 [_ F6]]]]]. unfold frame_items in El. rewrite <- !app_assoc in El. rewrite (Hu _ _ _ F2 F6 ltac:(unfold frame_items; rewrite <- !app_assoc; reflexivity)) in F4. lia.
    - eauto.
    - rewrite El in He. clear El Hu. destruct ds as [|d ds]; [congruence|]. inversion Hds as [|? ? Hd1 _]; subst. destruct He as [He|[r [He|He]]]; try discriminate. cbn in He. injection He as -> _. unfold digit in Hd1. change (bN x00) with 0%N in Hd1. lia.
    - destruct Ht as [_ [T2 [T3 [_ [gap [r [T5 [T6 _]]]]]]]]. rewrite (Hu _ _ _ T2 T6 T5) in T3. lia.
    - eauto. }
  destruct fs as [|f0 fs].
  - destruct (emitted_spec opts before rd Hm) as [rs [E1 E2]]. rewrite (arun_eqv _ _ _ _ _ _ Hd) in E2. cbn [frames_items map concat app] in E2.
    destruct (Hone _ _ (arun_outcome _ _ Hm _ _ _ _ E2)) as [e ->]. exists e. exact E1.
  - destruct (frames_then_rest opts before rd (f0 :: fs) _ Hm Hd ltac:(discriminate) Hok Ha) as [tail [E T]]. destruct (Hone _ _ T) as [e ->]. exists e. exact E.
Qed.
(* a message cut short: strict mode reports it, best effort parses what there is *)
Theorem truncated_message opts before rd fs l ds t : opts_max opts < 2 ^ 63 - 20 -> eqv (delivered rd) (frames_items fs ++ l) -> truncated (opts_max opts) l ds t ->
  Forall (frame_ok (opts_max opts)) fs -> (opts_best opts = true \/ Forall (fun fr => snd (answer (opts_best opts) (f_msg fr)) = None) fs) ->
  emitted opts before rd = Some (map (fun fr => answer_result (opts_best opts) (f_msg fr)) fs ++ [truncated_result (opts_best opts) ds t]).
Proof.
  intros Hm Hd Ht Hok Ha. destruct (emitted_spec opts before rd Hm) as [rs [E1 E2]]. rewrite (arun_eqv _ _ _ _ _ _ Hd) in E2.
  assert (Hone : forall f first rs, arun f (opts_max opts) (opts_best opts) first l = Some rs -> rs = [truncated_result (opts_best opts) ds t]).
  { intros f first rs0 H. destruct f as [|f]; [discriminate|]. cbn [arun] in H. destruct (ascan 0 false l) as [[[tok ml] rdy] r] eqn:E.
    assert (He : is_typ EOF tok = false).
    { destruct (ascan_first _ _ _ _ _ E) as [[_ [_ [_ [F1 _]]]]|[_ [_ F]]]; [exact F1|]. exfalso. destruct Ht as [T1 [T2 [_ [_ [gap [rest [T3 _]]]]]]]. destruct ds as [|d ds]; [congruence|].
      inversion T2; subst. eapply F; [reflexivity|assumption]. }
    rewrite He, andb_false_r, (classify_abody _ _ _ l _ _ _ _ Hm E), (classify_trunc _ _ _ _ _ Hm Ht) in H. injection H as <-. reflexivity. }
  destruct fs as [|f0 fs].
  - cbn [frames_items map concat app] in E2. rewrite E1. f_equal. eapply Hone; eauto.
  - destruct (arun_frames _ _ Hm (f0 :: fs) _ _ _ _ Hok Ha ltac:(discriminate) E2) as [tail [f' [T1 T2]]]. rewrite E1, T1. apply Hone in T2. rewrite T2. reflexivity.
Qed.
Example truncated_message_ex : emitted [OBestEffort] [] [(lit "16 <1>1 - - - -", None)]
  = Some [truncated_result true (lit "16") (lit "<1>1 - - - -")] /\ fst (answer true (lit "<1>1 - - - -")) <> None.
Proof. split; vm_compute; [reflexivity|discriminate]. Qed.
