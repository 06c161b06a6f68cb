(* The octet counting parser over what its reader delivers: refinement of MOctet, buffer and reader removed. *)
From Verif Require Import Bytes CommonFacts Common M5424Def M5424 MBuilder Ref5424c Props5424 Thm5424 Bufio MOctet SpecOctet.
Local Open Scope Z_scope.

Definition aread (l : list item) : byte * list item := match next l with (Some c, r) => (c, r) | (None, r) => (x00, r) end.
Fixpoint adigits (l : list item) : bytes * list item :=
  match l with
  | [] => ([], [])
  | IErr :: r => ([], r)
  | IByte c :: r => if beqb c x00 then ([], r)
                    else if is_digit c then (c :: fst (adigits r), snd (adigits r)) else ([], l)
  end.
(* the size of the buffer, then msglen, ready, what remains *)
Definition cscan (cap : Z) (ml : Z) (rdy : bool) (l : list item) : token * Z * bool * list item :=
  let (c, r) := aread l in
  if is_nonzero_digit c then (Token MSGLEN (c :: fst (adigits r)), parse_uint (c :: fst (adigits r)), false, snd (adigits r))
  else if beqb c x00 then (Token EOF [], ml, false, r)
  else if beqb c " " then (Token WS [" "%byte], ml, true, r)
  else if beqb c "<" && (0 <? ml) && rdy then
    if to_int ml <? 0 then (Token EOF [], ml, rdy, l)
    else match take_bytes (Z.to_nat (Z.min (to_int ml) cap)) l with
         | (t, k, r') => if k && (to_int ml <=? cap) then (Token SYSLOGMSG t, 0, false, r') else (Token EOF t, ml, rdy, r') end
  else (Token ILLEGAL [c], ml, rdy, r).

(* after the first token of a frame *)
Definition cbody (cap : Z) (rec : list item -> option (list result)) (max : Z) (best : bool) (tok : token) (ml : Z) (rdy : bool) (r : list item) : option (list result) :=
  if negb (is_typ MSGLEN tok) then Some [Result None (Some (EFound tok MSGLEN))]
  else if max <? to_int ml then Some [Result None (Some (ETooLong ml max))]
  else
    match cscan cap ml rdy r with
    | (tok, ml, rdy, r) =>
      if negb (is_typ WS tok) then Some [Result None (Some (EFound tok WS))]
      else
        match cscan cap ml rdy r with
        | (tok, ml, rdy, r) =>
          if negb (is_typ SYSLOGMSG tok) then
            let e := EAfter tok ml in
            if (Z.of_nat (length (tlit tok)) <? to_int ml) && best then
              match answer best (tlit tok) with
              | (m, re) => Some [Result m (match re with None => Some e | Some x => Some (EMachine x) end)] end
            else Some [Result None (Some e)]
          else
            match answer best (tlit tok) with
            | (m, e) =>
              match best, e with
              | false, Some x => Some [Result None (Some (EMachine x))]
              | _, _ => match rec r with
                        | Some rs => Some (Result m (option_map EMachine e) :: rs)
                        | None => None end
              end
            end
        end
    end.
Fixpoint crun (cap : Z) (fuel : nat) (max : Z) (best first : bool) (l : list item) : option (list result) :=
  match fuel with
  | O => None
  | S f =>
    match cscan cap 0 false l with
    | (tok, ml, rdy, r) =>
      if negb first && is_typ EOF tok then Some [] else cbody cap (crun cap f max best false) max best tok ml rdy r
    end
  end.

(* ---- the reading functions depend only on the stream ---- *)
Lemma aread_eqv l1 l2 : eqv l1 l2 -> fst (aread l1) = fst (aread l2) /\ eqv (snd (aread l1)) (snd (aread l2)).
Proof.
  intros H. destruct (next_eqv _ _ H) as [H1 H2]. unfold aread. destruct (next l1) as [[c1|] r1], (next l2) as [[c2|] r2]; cbn [fst snd] in *; try discriminate; try discriminate; split; congruence || auto.
Qed.
Lemma adigits_end l : eqv l [] -> fst (adigits l) = [] /\ eqv (snd (adigits l)) [].
Proof.
  destruct l as [|x l]; intros H; [split; [reflexivity|apply eqv_refl]|]. apply eqv_nil in H as [-> H]. cbn. auto.
Qed.
Lemma adigits_eqv l1 : forall l2, eqv l1 l2 -> fst (adigits l1) = fst (adigits l2) /\ eqv (snd (adigits l1)) (snd (adigits l2)).
Proof.
  induction l1 as [|x l1 IH]; intros l2 H.
  - apply eqv_sym in H. destruct (adigits_end l2 H) as [H1 H2]. rewrite H1. split; [reflexivity|apply eqv_sym; exact H2].
  - destruct l2 as [|y l2].
    + destruct (adigits_end _ H) as [H1 H2]. rewrite H1. split; [reflexivity|exact H2].
    + pose proof H as H0. apply eqv_inv in H as [-> H]. destruct y as [c|]; cbn [adigits]; [|split; [reflexivity|exact H]].
      destruct (beqb c x00); [split; [reflexivity|exact H]|]. destruct (is_digit c); [|split; [reflexivity|exact H0]].
      destruct (IH _ H) as [I1 I2]. cbn [fst snd]. rewrite I1. auto.
Qed.
Lemma cscan_eqv cap ml rdy l1 l2 : eqv l1 l2 -> fst (cscan cap ml rdy l1) = fst (cscan cap ml rdy l2) /\ eqv (snd (cscan cap ml rdy l1)) (snd (cscan cap ml rdy l2)).
Proof.
  intros H. destruct (aread_eqv _ _ H) as [A1 A2]. unfold cscan. destruct (aread l1) as [c r1], (aread l2) as [c2 r2]. cbn [fst snd] in A1, A2. subst c2.
  destruct (adigits_eqv _ _ A2) as [D1 D2]. destruct (is_nonzero_digit c); [cbn [fst snd]; rewrite D1; auto|].
  destruct (beqb c x00); [auto|]. destruct (beqb c " "); [auto|]. destruct (beqb c "<" && (0 <? ml) && rdy); [|auto].
  destruct (to_int ml <? 0); [auto|]. destruct (take_eqv (Z.to_nat (Z.min (to_int ml) cap)) _ _ H) as [T1 T2].
  destruct (take_bytes _ l1) as [[t1 k1] q1], (take_bytes _ l2) as [[t2 k2] q2]. cbn [fst snd] in *. injection T1 as -> ->. destruct (k2 && _); auto.
Qed.
Lemma crun_eqv cap fuel max best : forall first l1 l2, eqv l1 l2 -> crun cap fuel max best first l1 = crun cap fuel max best first l2.
Proof.
  induction fuel as [|f IH]; intros first l1 l2 H; [reflexivity|]. cbn [crun]; unfold cbody.
  destruct (cscan_eqv cap 0 false _ _ H) as [S1 S2]. destruct (cscan cap 0 false l1) as [[[t m] d] r1], (cscan cap 0 false l2) as [[[t2 m2] d2] r2]. cbn [fst snd] in S1, S2.
  injection S1 as -> -> ->. destruct (negb first && is_typ EOF t2); [reflexivity|]. destruct (negb (is_typ MSGLEN t2)); [reflexivity|]. destruct (max <? to_int m2); [reflexivity|].
  clear H. destruct (cscan_eqv cap m2 d2 _ _ S2) as [S1 S3]. clear S2. destruct (cscan cap m2 d2 r1) as [[[t m] d] r1'], (cscan cap m2 d2 r2) as [[[t3 m3] d3] r2']. cbn [fst snd] in S1, S3.
  injection S1 as -> -> ->. destruct (negb (is_typ WS t3)); [reflexivity|].
  destruct (cscan_eqv cap m3 d3 _ _ S3) as [S1 S4]. clear S3. destruct (cscan cap m3 d3 r1') as [[[t m] d] r1''], (cscan cap m3 d3 r2') as [[[t4 m4] d4] r2'']. cbn [fst snd] in S1, S4.
  injection S1 as -> -> ->. destruct (negb (is_typ SYSLOGMSG t4)); [reflexivity|]. destruct (answer best (tlit t4)) as [mm e].
  rewrite (IH false _ _ S4). reflexivity.
Qed.
Lemma crun_more cap f max best : forall first l rs, crun cap f max best first l = Some rs -> forall k, (f <= k)%nat -> crun cap k max best first l = Some rs.
Proof.
  induction f as [|f IH]; intros first l rs H k Hk; [discriminate|]. destruct k as [|k]; [lia|]. cbn [crun] in *; unfold cbody in *.
  destruct (cscan cap 0 false l) as [[[t m] d] r]. destruct (negb first && is_typ EOF t); [exact H|]. destruct (negb (is_typ MSGLEN t)); [exact H|]. destruct (max <? to_int m); [exact H|].
  destruct (cscan cap m d r) as [[[t2 m2] d2] r2]. destruct (negb (is_typ WS t2)); [exact H|].
  destruct (cscan cap m2 d2 r2) as [[[t3 m3] d3] r3]. destruct (negb (is_typ SYSLOGMSG t3)); [exact H|]. destruct (answer best (tlit t3)) as [mm e].
  assert (Hr : forall q, match crun cap f max best false r3 with Some rs => Some (q :: rs) | None => None end = Some rs -> match crun cap k max best false r3 with Some rs => Some (q :: rs) | None => None end = Some rs).
  { intros q Hq. destruct (crun cap f max best false r3) as [rs'|] eqn:E; [|discriminate]. rewrite (IH _ _ _ E k) by lia. exact Hq. }
  destruct best; [apply Hr; exact H|]. destruct e; [exact H|apply Hr; exact H].
Qed.

(* ---- the scanner ---- *)
Lemma beqb_eq' a b : beqb a b = true -> a = b. Proof. apply beqb_eq. Qed.
Lemma sread_spec b : ok b -> exists b', sread b = Some (fst (aread (abs b)), b') /\ eqv (abs b') (snd (aread (abs b)))
  /\ ok b' /\ f_size b' = f_size b /\ (left b' <= left b)%nat
  /\ (beqb (fst (aread (abs b))) x00 = false ->
       f_last b' = Some (fst (aread (abs b))) /\ 0 < f_r b' /\ f_buffered b' < f_size b' /\ (left b' < left b)%nat
       /\ eqv (IByte (fst (aread (abs b))) :: abs b') (abs b)).
Proof.
  intros H. destruct (read_byte_spec b H) as [b' [R1 [R2 [R3 [R4 [R5 R6]]]]]]. exists b'. unfold sread, aread. rewrite R1.
  assert (Hn : forall c r, next (abs b) = (Some c, r) -> abs b = IByte c :: r) by (intros c r; destruct (abs b) as [|[|]]; cbn; intros E; try discriminate; injection E as -> ->; reflexivity).
  destruct (next (abs b)) as [[c|] r]; cbn [fst snd] in *; (split; [reflexivity|]); (split; [exact R2|]); (split; [exact R3|]); (split; [exact R4|]); (split; [exact R5|]).
  - intros _. destruct (R6 c eq_refl) as [A1 [A2 [A3 A4]]]. repeat split; auto. rewrite (Hn c r eq_refl). apply eqv_cons. exact R2.
  - discriminate.
Qed.
Lemma sread_unread b : ok b -> beqb (fst (aread (abs b))) x00 = false -> exists b', sread b = Some (fst (aread (abs b)), b') /\
  eqv (abs (unread_byte b')) (abs b) /\ ok (unread_byte b') /\ f_size (unread_byte b') = f_size b /\ (left (unread_byte b') <= left b)%nat
  /\ eqv (abs b') (snd (aread (abs b))) /\ ok b' /\ f_size b' = f_size b /\ (left b' < left b)%nat.
Proof.
  intros H Hz. destruct (sread_spec b H) as [b' [S1 [S2 [S3 [S4 [S5 S6]]]]]]. destruct (S6 Hz) as [A1 [A2 [A3 [A4 A5]]]].
  exists b'. split; [exact S1|]. destruct (unread_spec b' _ S3 A1 A2 A3) as [U1 [U2 [U3 U4]]]. rewrite U1, U4. split; [exact A5|]. split; [exact U2|]. split; [congruence|]. split; [lia|]. auto.
Qed.
Lemma adigits_unfold l : fst (adigits l) = (if beqb (fst (aread l)) x00 then [] else if is_digit (fst (aread l)) then fst (aread l) :: fst (adigits (snd (aread l))) else [])
  /\ snd (adigits l) = (if beqb (fst (aread l)) x00 then snd (aread l) else if is_digit (fst (aread l)) then snd (adigits (snd (aread l))) else l).
Proof.
  destruct l as [|[c|] r]; cbn; try (split; reflexivity). destruct (beqb c x00); [split; reflexivity|]. destruct (is_digit c); split; reflexivity.
Qed.
Lemma digits_loop_spec fuel : forall b buf, ok b -> (left b < fuel)%nat -> exists b', digits_loop fuel b buf = Some (buf ++ fst (adigits (abs b)), b')
  /\ eqv (abs b') (snd (adigits (abs b))) /\ ok b' /\ f_size b' = f_size b /\ (left b' <= left b)%nat.
Proof.
  induction fuel as [|f IH]; intros b buf H Hf; [lia|]. cbn [digits_loop]. destruct (adigits_unfold (abs b)) as [D1 D2]. rewrite D1, D2. clear D1 D2.
  destruct (beqb (fst (aread (abs b))) x00) eqn:E0.
  - destruct (sread_spec b H) as [b' [S1 [S2 [S3 [S4 [S5 S6]]]]]]. rewrite S1, E0, app_nil_r. exists b'. auto.
  - destruct (sread_unread b H E0) as [b' [S1 [U1 [U2 [U3 [U4 [S2 [S3 [S4 S5]]]]]]]]]. rewrite S1, E0. destruct (is_digit (fst (aread (abs b)))) eqn:Ed; cbn [negb].
    + destruct (IH b' (buf ++ [fst (aread (abs b))]) S3 ltac:(lia)) as [b'' [L1 [L2 [L3 [L4 L5]]]]]. destruct (adigits_eqv _ _ S2) as [Q1 Q2]. rewrite Q1 in L1.
      exists b''. split; [rewrite L1, <- app_assoc; reflexivity|]. split; [eapply eqv_trans; [exact L2|exact Q2]|]. split; [exact L3|]. split; [congruence|lia].
    + rewrite app_nil_r. exists (unread_byte b'). auto.
Qed.
Lemma aread_cons x l : x <> IErr -> aread (x :: l) = (match x with IByte c => c | IErr => x00 end, l). Proof. destruct x; [reflexivity|congruence]. Qed.

Lemma parse_uint_loop_range s : forall n, 0 <= n < 2 ^ 64 -> 0 <= parse_uint_loop n s < 2 ^ 64.
Proof.
  induction s as [|b r IH]; intros n H; cbn [parse_uint_loop]; [exact H|].
  destruct ((48 <=? bN b) && (bN b <=? 57))%N eqn:E; [|lia]. apply andb_true_iff in E as [E1 E2]. apply N.leb_le in E1, E2.
  destruct (Z.leb_spec (2 ^ 64 / 10 + 1) n); [lia|]. destruct (Z.leb_spec (2 ^ 64) (n * 10 + (Z.of_N (bN b) - 48))); [lia|]. apply IH. lia.
Qed.
Lemma parse_uint_range s : 0 <= parse_uint s < 2 ^ 64.
Proof. destruct s; cbn [parse_uint]; [lia|]. apply parse_uint_loop_range. lia. Qed.
Lemma cscan_range cap ml rdy l tok ml' rdy' r : 0 <= ml < 2 ^ 64 -> cscan cap ml rdy l = (tok, ml', rdy', r) -> 0 <= ml' < 2 ^ 64.
Proof.
  intros H. unfold cscan. destruct (aread l) as [c q]. pose proof (parse_uint_range (c :: fst (adigits q))) as Hp.
  destruct (is_nonzero_digit c); [intros E; injection E as <- <- <- <-; exact Hp|].
  destruct (beqb c x00); [intros E; injection E as <- <- <- <-; lia|].
  destruct (beqb c " "); [intros E; injection E as <- <- <- <-; lia|].
  destruct (beqb c "<" && (0 <? ml) && rdy); [|intros E; injection E as <- <- <- <-; lia].
  destruct (to_int ml <? 0); [intros E; injection E as <- <- <- <-; lia|].
  destruct (take_bytes _ l) as [[t k] q']. destruct (k && _); intros E; injection E as <- <- <- <-; lia.
Qed.

(* one Scan *)
Lemma scan_spec cap s : ok (s_r s) -> f_size (s_r s) = cap -> s_msglen s < 2 ^ 64 ->
  exists tok ml rdy r s', cscan cap (s_msglen s) (s_ready s) (abs (s_r s)) = (tok, ml, rdy, r) /\ scan s = Some (tok, s')
    /\ s_msglen s' = ml /\ s_ready s' = rdy
    /\ (is_typ EOF tok = false -> eqv (abs (s_r s')) r /\ ok (s_r s') /\ f_size (s_r s') = f_size (s_r s) /\ (left (s_r s') < left (s_r s))%nat).
Proof.
  intros H Hm Hm64. unfold cscan, scan. destruct (aread (abs (s_r s))) as [c r] eqn:Ea. assert (Ec : fst (aread (abs (s_r s))) = c) by (rewrite Ea; reflexivity).
  assert (Er : snd (aread (abs (s_r s))) = r) by (rewrite Ea; reflexivity).
  destruct (is_nonzero_digit c) eqn:En.
  - assert (E0 : beqb (fst (aread (abs (s_r s)))) x00 = false).
    { rewrite Ec. apply not_true_iff_false. intros E. apply beqb_eq in E. rewrite E in En. vm_compute in En. discriminate En. }
    destruct (sread_unread (s_r s) H E0) as [b' [S1 [U1 [U2 [U3 [U4 _]]]]]]. rewrite S1, Ec, En. unfold scan_msg_len. cbn [s_r s_msglen s_ready].
    destruct (aread_eqv _ _ U1) as [A1 A2]. rewrite Ec in A1. rewrite Er in A2.
    assert (E0' : beqb (fst (aread (abs (unread_byte b')))) x00 = false) by (rewrite A1, <- Ec; exact E0).
    destruct (sread_unread (unread_byte b') U2 E0') as [b2 [S2 [_ [_ [_ [_ [V2 [V3 [V4 V5]]]]]]]]]. rewrite S2, A1.
    destruct (digits_loop_spec (S (left b2)) b2 [c] V3 ltac:(lia)) as [b3 [L1 [L2 [L3 [L4 L5]]]]]. rewrite L1. cbn [app].
    assert (Eq : eqv (abs b2) r) by (eapply eqv_trans; [exact V2|exact A2]). destruct (adigits_eqv _ _ Eq) as [Q1 Q2]. rewrite Q1.
    eexists _, _, _, _, _. split; [reflexivity|]. split; [reflexivity|]. split; [reflexivity|]. split; [reflexivity|]. intros _. cbn [s_r].
    split; [eapply eqv_trans; [exact L2|exact Q2]|]. split; [exact L3|]. split; [congruence|lia].
  - destruct (beqb c x00) eqn:E0.
    { destruct (sread_spec (s_r s) H) as [b' [S1 _]]. rewrite S1, Ec, En, E0. eexists _, _, _, _, _. do 4 (split; [reflexivity|]). discriminate. }
    destruct (sread_unread (s_r s) H ltac:(rewrite Ec; exact E0)) as [b' [S1 [U1 [U2 [U3 [U4 [S2 [S3 [S4 S5]]]]]]]]]. rewrite S1, Ec, En, E0. rewrite Er in S2.
    destruct (beqb c " ").
    { eexists _, _, _, _, _. do 4 (split; [reflexivity|]). intros _. cbn [s_r]. auto. }
    destruct (beqb c "<" && (0 <? s_msglen s) && s_ready s) eqn:El.
    + unfold scan_syslog_msg. cbn [s_msglen s_r s_ready]. destruct (Z.ltb_spec (to_int (s_msglen s)) 0) as [Hneg|Hpos].
      { unfold peek. replace (to_int (s_msglen s) <? 0) with true by (symmetry; apply Z.ltb_lt; exact Hneg). eexists _, _, _, _, _. do 4 (split; [reflexivity|]). discriminate. }
      destruct (take_eqv (Z.to_nat (Z.min (to_int (s_msglen s)) cap)) _ _ U1) as [T1 T2]. rewrite Hm in *. destruct (Z.leb_spec (to_int (s_msglen s)) cap) as [Hc|Hc].
      2:{ destruct (peek_over (to_int (s_msglen s)) (unread_byte b') U2) as [b2 P]; [lia|]. rewrite P, U3. rewrite Z.min_r in * by lia. rewrite T1.
          destruct (take_bytes _ (abs (s_r s))) as [[t2 k2] q2]. cbn [fst]. rewrite andb_false_r. eexists _, _, _, _, _. do 4 (split; [reflexivity|]). discriminate. }
      rewrite Z.min_l in * by lia.
      destruct (peek_spec (to_int (s_msglen s)) (unread_byte b') U2) as [b2 [P1 P2]]; [lia|]. rewrite P1.
      destruct (take_bytes _ (abs (unread_byte b'))) as [[t1 k1] q1], (take_bytes _ (abs (s_r s))) as [[t2 k2] q2]. cbn [fst snd] in *. injection T1 as -> ->. rewrite andb_true_r.
      destruct k2.
      * destruct (P2 eq_refl) as [b3 [D1 [D2 [D3 [D4 D5]]]]]. rewrite D1. eexists _, _, _, _, _. do 4 (split; [reflexivity|]). intros _. cbn [s_r].
        split; [eapply eqv_trans; eauto|]. split; [exact D3|]. split; [congruence|]. 
        assert (0 < to_int (s_msglen s)). { apply andb_true_iff in El as [El _]. apply andb_true_iff in El as [_ El]. apply Z.ltb_lt in El. unfold to_int in *. destruct (Z.ltb_spec (s_msglen s) (2 ^ 63)); lia. }
        lia.
      * eexists _, _, _, _, _. do 4 (split; [reflexivity|]). discriminate.
    + eexists _, _, _, _, _. do 4 (split; [reflexivity|]). intros _. cbn [s_r]. auto.
Qed.

(* ---- the parser ---- *)
Lemma cscan_ws cap ml rdy l tok ml' rdy' r : cscan cap ml rdy l = (tok, ml', rdy', r) -> is_typ WS tok = true -> ml' = ml.
Proof.
  unfold cscan. destruct (aread l) as [c q].
  destruct (is_nonzero_digit c); [intros E; injection E as <- <- <- <-; discriminate|].
  destruct (beqb c x00); [intros E; injection E as <- <- <- <-; discriminate|].
  destruct (beqb c " "); [intros E; injection E as <- <- <- <-; reflexivity|].
  destruct (beqb c "<" && (0 <? ml) && rdy); [|intros E; injection E as <- <- <- <-; discriminate].
  destruct (to_int ml <? 0); [intros E; injection E as <- <- <- <-; discriminate|].
  destruct (take_bytes _ l) as [[t k] q']. destruct (k && _); intros E; injection E as <- <- <- <-; discriminate.
Qed.
Lemma cscan_msg cap ml rdy l tok ml' rdy' r : cscan cap ml rdy l = (tok, ml', rdy', r) -> is_typ SYSLOGMSG tok = true -> ml' = 0 /\ rdy' = false.
Proof.
  unfold cscan. destruct (aread l) as [c q].
  destruct (is_nonzero_digit c); [intros E; injection E as <- <- <- <-; discriminate|].
  destruct (beqb c x00); [intros E; injection E as <- <- <- <-; discriminate|].
  destruct (beqb c " "); [intros E; injection E as <- <- <- <-; discriminate|].
  destruct (beqb c "<" && (0 <? ml) && rdy); [|intros E; injection E as <- <- <- <-; discriminate].
  destruct (to_int ml <? 0); [intros E; injection E as <- <- <- <-; discriminate|].
  destruct (take_bytes _ l) as [[t k] q']. destruct (k && _); intros E; injection E as <- <- <- <-; [auto|discriminate].
Qed.

(* what a parser keeps between its calls *)
Definition same_options (p p' : oparser) : Prop :=
  p_max p' = p_max p /\ p_best p' = p_best p /\ p_stepback p' = false
  /\ bestEffort (p_internal p') = bestEffort (p_internal p) /\ compliant (p_internal p') = compliant (p_internal p).
Definition pok (p : oparser) : Prop := bestEffort (p_internal p) = p_best p /\ compliant (p_internal p) = false.
Lemma pparse_spec p data : pok p -> exists p', pparse p data = Some (Result (fst (answer (p_best p) data)) (option_map EMachine (snd (answer (p_best p) data))), p')
  /\ p_max p' = p_max p /\ p_best p' = p_best p /\ p_stepback p' = p_stepback p /\ p_s p' = p_s p /\ pok p'
  /\ bestEffort (p_internal p') = bestEffort (p_internal p) /\ compliant (p_internal p') = compliant (p_internal p).
Proof.
  intros [H1 H2]. unfold pparse, answer. destruct (parse_total (p_internal p) data) as [r [e E]].
  rewrite (parse_independent (new_machine (p_best p) false) (p_internal p)); [|rewrite H1; destruct (p_best p); reflexivity|rewrite H2; reflexivity].
  destruct (parse_spec (p_internal p) data) as [_ [F1 F2]]. destruct (parse (p_internal p) data) as [m x]. cbn [fst snd] in *. subst x. cbn [fst snd].
  eexists. split; [reflexivity|]. unfold pok. cbn. repeat split; congruence.
Qed.

Lemma pscan_spec cap p : p_stepback p = false -> ok (s_r (p_s p)) -> f_size (s_r (p_s p)) = cap -> s_msglen (p_s p) < 2 ^ 64 ->
  exists tok ml rdy r p', cscan cap (s_msglen (p_s p)) (s_ready (p_s p)) (abs (s_r (p_s p))) = (tok, ml, rdy, r) /\ pscan p = Some (tok, p')
    /\ s_msglen (p_s p') = ml /\ s_ready (p_s p') = rdy /\ p_last p' = tok /\ p_stepback p' = false /\ p_max p' = p_max p /\ p_best p' = p_best p /\ p_internal p' = p_internal p
    /\ (is_typ EOF tok = false -> eqv (abs (s_r (p_s p'))) r /\ ok (s_r (p_s p')) /\ f_size (s_r (p_s p')) = f_size (s_r (p_s p)) /\ (left (s_r (p_s p')) < left (s_r (p_s p)))%nat).
Proof.
  intros Hs H1 H2 H3. destruct (scan_spec cap (p_s p) H1 H2 H3) as [tok [ml [rdy [r [s' [E1 [E2 [E3 [E4 E5]]]]]]]]].
  unfold pscan. rewrite Hs, E2. exists tok, ml, rdy, r, (set_p_s s' tok p). cbn. repeat split; auto; apply E5; assumption.
Qed.

Lemma typ_excl t1 t2 tok : is_typ t1 tok = true -> t1 <> t2 -> is_typ t2 tok = false.
Proof. unfold is_typ. destruct tok as [[] l], t1, t2; cbn; congruence. Qed.
Lemma body_spec cap f : forall p tok r, p_stepback p = false -> ok (s_r (p_s p)) -> f_size (s_r (p_s p)) = cap -> pok p ->
  0 <= s_msglen (p_s p) < 2 ^ 64 -> eqv (abs (s_r (p_s p))) r -> (left (s_r (p_s p)) < f)%nat ->
  exists rs p', run_body (run f) tok p = Some (rs, p') /\ cbody cap (crun cap f (p_max p) (p_best p) false) (p_max p) (p_best p) tok (s_msglen (p_s p)) (s_ready (p_s p)) r = Some rs
    /\ same_options p p'.
Proof.
  induction f as [f IH] using lt_wf_ind. intros p tok r Hsb Hok Hsz Hp Hml Heq Hf. unfold run_body, cbody.
  assert (Hso : same_options p p) by (unfold same_options; auto).
  destruct (is_typ MSGLEN tok) eqn:Et; cbn [negb]; [|eexists _, _; split; [reflexivity|]; split; [reflexivity|exact Hso]].
  destruct (Z.ltb_spec (p_max p) (to_int (s_msglen (p_s p)))) as [Hl|Hl]; [eexists _, _; split; [reflexivity|]; split; [reflexivity|exact Hso]|].
  (* second token *)
  destruct (pscan_spec cap p Hsb Hok Hsz ltac:(lia)) as [tok2 [ml2 [rdy2 [r2 [p2 [A1 [A2 [A3 [A4 [A5 [A6 [A7 [A8 [A9 A10]]]]]]]]]]]]]].
  destruct (cscan_eqv cap (s_msglen (p_s p)) (s_ready (p_s p)) _ _ Heq) as [Q1 Q2]. rewrite A1 in Q1, Q2. cbn [fst snd] in Q1, Q2.
  destruct (cscan cap _ _ r) as [[[tk ml] rdy] r'] eqn:EA. cbn [fst snd] in Q1, Q2. injection Q1 as <- <- <-. rewrite A2.
  assert (Hso2 : same_options p p2) by (unfold same_options; rewrite A9; auto).
  destruct (is_typ WS tok2) eqn:Et2; cbn [negb]; [|eexists _, _; split; [reflexivity|]; split; [reflexivity|exact Hso2]].
  assert (Em : ml2 = s_msglen (p_s p)) by (eapply cscan_ws; eauto).
  destruct A10 as [B1 [B2 [B3 B4]]]; [eapply typ_excl; [exact Et2|discriminate]|].
  (* third token *)
  destruct (pscan_spec cap p2 A6 B2) as [tok3 [ml3 [rdy3 [r3 [p3 [C1 [C2 [C3 [C4 [C5 [C6 [C7 [C8 [C9 C10]]]]]]]]]]]]]]; [congruence|rewrite A3, Em; lia|].
  assert (Heq2 : eqv (abs (s_r (p_s p2))) r') by (eapply eqv_trans; eauto).
  destruct (cscan_eqv cap (s_msglen (p_s p2)) (s_ready (p_s p2)) _ _ Heq2) as [Q1 Q3]. rewrite C1 in Q1, Q3. cbn [fst snd] in Q1, Q3. rewrite A3, A4 in Q1, Q3.
  destruct (cscan cap ml2 rdy2 r') as [[[tk ml] rdy] r''] eqn:EB. cbn [fst snd] in Q1, Q3. injection Q1 as <- <- <-. rewrite C2.
  assert (Hso3 : same_options p p3) by (unfold same_options; rewrite C9, A9; repeat split; congruence).
  assert (Hp3 : pok p3) by (unfold pok in *; rewrite C9, A9; destruct Hp; split; congruence).
  destruct (pparse_spec p3 (tlit tok3) Hp3) as [p4 [D1 [D2 [D3 [D4 [D5 [D6 [D7 D8]]]]]]]].
  assert (Eb : p_best p3 = p_best p) by congruence. assert (Em3 : p_max p3 = p_max p) by congruence.
  assert (Hso4 : same_options p p4). { unfold same_options. rewrite D2, D3, D4, D7, D8, C9, A9. repeat split; congruence. }
  destruct (is_typ SYSLOGMSG tok3) eqn:Et3; cbn [negb].
  2:{ rewrite C3, Eb. destruct (_ && _); [|eexists _, _; split; [reflexivity|]; split; [reflexivity|exact Hso3]].
      rewrite D1, Eb. destruct (answer (p_best p) (tlit tok3)) as [mm e]. cbn [fst snd]. exists [Result mm (match e with None => Some (EAfter tok3 ml3) | Some x => Some (EMachine x) end)], p4.
      split; [destruct e; reflexivity|]. split; [reflexivity|exact Hso4]. }
  destruct (C10 ltac:(eapply typ_excl; [exact Et3|discriminate])) as [F1 [F2 [F3 F4]]].
  destruct (cscan_msg _ _ _ _ _ _ _ _ C1 Et3) as [Ez Ez'].
  rewrite D1, Eb. destruct (answer (p_best p) (tlit tok3)) as [mm e] eqn:Epf. cbn [fst snd r_err]. rewrite D3, Eb.
  destruct (negb (p_best p) && match option_map EMachine e with Some _ => true | None => false end) eqn:Ee.
  { apply andb_true_iff in Ee as [Ee1 Ee2]. destruct (p_best p); [discriminate|]. destruct e; [|discriminate]. cbn [option_map]. eexists _, _. split; [reflexivity|]. split; [reflexivity|exact Hso4]. }
  (* fourth token *)
  destruct (pscan_spec cap p4) as [tok5 [ml5 [rdy5 [r5 [p5 [G1 [G2 [G3 [G4 [G5 [G6 [G7 [G8 [G9 G10]]]]]]]]]]]]]];
    [congruence|rewrite D5; exact F2|rewrite D5; congruence|rewrite D5, C3, Ez; lia|]. rewrite G2.
  rewrite D5, C3, C4, Ez, Ez' in G1.
  assert (Heq4 : eqv (abs (s_r (p_s p3))) r'') by (eapply eqv_trans; eauto).
  destruct (cscan_eqv cap 0 false _ _ Heq4) as [Q1 Q4]. rewrite G1 in Q1, Q4. cbn [fst snd] in Q1, Q4.
  assert (Hso5 : same_options p p5). { unfold same_options in *. rewrite G7, G8, G9, G6. destruct Hso4 as [? [? [? [? ?]]]]. auto. }
  assert (Hfin : forall rs p', (if is_typ EOF tok5 then Some ([Result mm (option_map EMachine e)], p5) else match run f (set_p_stepback true p5) with Some (rs, p') => Some (Result mm (option_map EMachine e) :: rs, p') | None => None end) = Some (rs, p') ->
     same_options p p' -> (match crun cap f (p_max p) (p_best p) false r'' with Some rs => Some (Result mm (option_map EMachine e) :: rs) | None => None end) = Some rs ->
     exists rs0 p'0, (if is_typ EOF tok5 then Some ([Result mm (option_map EMachine e)], p5) else match run f (set_p_stepback true p5) with Some (rs, p') => Some (Result mm (option_map EMachine e) :: rs, p') | None => None end) = Some (rs0, p'0)
       /\ (match p_best p with true => match crun cap f (p_max p) (p_best p) false r'' with Some rs => Some (Result mm (option_map EMachine e) :: rs) | None => None end
           | false => match e with Some x => Some [Result None (Some (EMachine x))] | None => match crun cap f (p_max p) (p_best p) false r'' with Some rs => Some (Result mm (option_map EMachine e) :: rs) | None => None end end end) = Some rs0
       /\ same_options p p'0).
  { intros rs p' X1 X2 X3. exists rs, p'. split; [exact X1|]. split; [|exact X2]. destruct (p_best p); [exact X3|]. destruct e; [discriminate|exact X3]. }
  destruct f as [|f]; [lia|]. 
  assert (Har : crun cap (S f) (p_max p) (p_best p) false r'' = if is_typ EOF tok5 then Some [] else cbody cap (crun cap f (p_max p) (p_best p) false) (p_max p) (p_best p) tok5 ml5 rdy5 (snd (cscan cap 0 false r''))).
  { cbn [crun]. destruct (cscan cap 0 false r'') as [[[tk ml] rdy] rr]. cbn [fst snd] in *. injection Q1 as <- <- <-. reflexivity. }
  destruct (is_typ EOF tok5) eqn:Et5.
  { eapply Hfin; [reflexivity|exact Hso5|]. rewrite Har. reflexivity. }
  destruct (G10 eq_refl) as [I1 [I2 [I3 I4]]]. rewrite D5 in I3, I4.
  destruct (IH f ltac:(lia) p5 tok5 (snd (cscan cap 0 false r''))) as [rs [p' [J1 [J2 J3]]]]; auto.
  - congruence.
  - unfold pok in *. rewrite G9, G8. exact D6.
  - rewrite G3. eapply cscan_range; [|exact G1]. lia.
  - eapply eqv_trans; eauto.
  - lia.
  - eapply Hfin.
    + cbn [run]. unfold pscan at 1. cbn [set_p_stepback p_stepback p_last]. rewrite G5.
      replace (set_p_stepback false (set_p_stepback true p5)) with p5 by (destruct p5; cbn in *; unfold set_p_stepback; cbn; congruence). rewrite J1. reflexivity.
    + unfold same_options in *. destruct J3 as [? [? [? [? ?]]]], Hso5 as [? [? [? [? ?]]]]. repeat split; congruence.
    + rewrite Har, <- G3, <- G4. rewrite G7, D2, Em3, G8, D3, Eb in J2. rewrite J2. reflexivity.
Qed.

(* ---- Parse ---- *)
Lemma stream_spec_c p rd : p_stepback p = false -> pok p ->
  exists rs p', parse_stream p rd = Some (rs, p') /\ crun (f_size (s_r (new_scanner rd (p_max p)))) (S (rd_size rd)) (p_max p) (p_best p) true (delivered rd) = Some rs /\ same_options p p'.
Proof.
  intros Hsb Hp. unfold parse_stream. set (p0 := OParser _ _ _ _ _ _). cbn [run crun].
  assert (Hl : left (s_r (p_s p0)) = rd_size rd) by reflexivity.
  destruct (pscan_spec (f_size (s_r (new_scanner rd (p_max p)))) p0) as [tok [ml [rdy [r [p1 [A1 [A2 [A3 [A4 [A5 [A6 [A7 [A8 [A9 A10]]]]]]]]]]]]]].
  - exact Hsb.
  - unfold ok, f_buffered. cbn. lia.
  - reflexivity.
  - cbn. lia.
  - rewrite A2. assert (Ea : abs (s_r (p_s p0)) = delivered rd) by reflexivity. rewrite Ea in A1. cbn [p0 p_s new_scanner s_msglen s_ready] in A1. rewrite A1. cbn [negb andb].
    destruct (is_typ EOF tok) eqn:Et.
    + unfold run_body, cbody. rewrite (typ_excl EOF MSGLEN tok Et) by discriminate. cbn [negb]. eexists _, _. split; [reflexivity|]. split; [reflexivity|].
      unfold same_options. rewrite A6, A7, A8, A9. auto.
    + destruct (A10 eq_refl) as [B1 [B2 [B3 B4]]].
      destruct (body_spec (f_size (s_r (new_scanner rd (p_max p)))) (rd_size rd) p1 tok r A6 B2) as [rs [p' [C1 [C2 C3]]]]; auto.
      * unfold pok in *. rewrite A9, A8. exact Hp.
      * rewrite A3. eapply cscan_range; [|exact A1]. lia.
      * exists rs, p'. split; [exact C1|]. rewrite A3, A4, A7, A8 in C2. split; [exact C2|]. unfold same_options in *. rewrite A7, A8, A9 in C3. exact C3.
Qed.

(* ---- when the buffer holds every message of at most max bytes, its size does not matter ---- *)
(* msglen, ready, what remains *)
Definition ascan (ml : Z) (rdy : bool) (l : list item) : token * Z * bool * list item :=
  let (c, r) := aread l in
  if is_nonzero_digit c then (Token MSGLEN (c :: fst (adigits r)), parse_uint (c :: fst (adigits r)), false, snd (adigits r))
  else if beqb c x00 then (Token EOF [], ml, false, r)
  else if beqb c " " then (Token WS [" "%byte], ml, true, r)
  else if beqb c "<" && (0 <? ml) && rdy then
    if to_int ml <? 0 then (Token EOF [], ml, rdy, l)
    else match take_bytes (Z.to_nat (to_int ml)) l with
         | (t, true, r') => (Token SYSLOGMSG t, 0, false, r')
         | (t, false, r') => (Token EOF t, ml, rdy, r') end
  else (Token ILLEGAL [c], ml, rdy, r).

(* after the first token of a frame *)
Definition abody (rec : list item -> option (list result)) (max : Z) (best : bool) (tok : token) (ml : Z) (rdy : bool) (r : list item) : option (list result) :=
  if negb (is_typ MSGLEN tok) then Some [Result None (Some (EFound tok MSGLEN))]
  else if max <? to_int ml then Some [Result None (Some (ETooLong ml max))]
  else
    match ascan ml rdy r with
    | (tok, ml, rdy, r) =>
      if negb (is_typ WS tok) then Some [Result None (Some (EFound tok WS))]
      else
        match ascan ml rdy r with
        | (tok, ml, rdy, r) =>
          if negb (is_typ SYSLOGMSG tok) then
            let e := EAfter tok ml in
            if (Z.of_nat (length (tlit tok)) <? to_int ml) && best then
              match answer best (tlit tok) with
              | (m, re) => Some [Result m (match re with None => Some e | Some x => Some (EMachine x) end)] end
            else Some [Result None (Some e)]
          else
            match answer best (tlit tok) with
            | (m, e) =>
              match best, e with
              | false, Some x => Some [Result None (Some (EMachine x))]
              | _, _ => match rec r with
                        | Some rs => Some (Result m (option_map EMachine e) :: rs)
                        | None => None end
              end
            end
        end
    end.
Fixpoint arun (fuel : nat) (max : Z) (best first : bool) (l : list item) : option (list result) :=
  match fuel with
  | O => None
  | S f =>
    match ascan 0 false l with
    | (tok, ml, rdy, r) =>
      if negb first && is_typ EOF tok then Some [] else abody (arun f max best false) max best tok ml rdy r
    end
  end.

Lemma ascan_eqv ml rdy l1 l2 : eqv l1 l2 -> fst (ascan ml rdy l1) = fst (ascan ml rdy l2) /\ eqv (snd (ascan ml rdy l1)) (snd (ascan ml rdy l2)).
Proof.
  intros H. destruct (aread_eqv _ _ H) as [A1 A2]. unfold ascan. destruct (aread l1) as [c r1], (aread l2) as [c2 r2]. cbn [fst snd] in A1, A2. subst c2.
  destruct (adigits_eqv _ _ A2) as [D1 D2]. destruct (is_nonzero_digit c); [cbn [fst snd]; rewrite D1; auto|].
  destruct (beqb c x00); [auto|]. destruct (beqb c " "); [auto|]. destruct (beqb c "<" && (0 <? ml) && rdy); [|auto].
  destruct (to_int ml <? 0); [auto|]. destruct (take_eqv (Z.to_nat (to_int ml)) _ _ H) as [T1 T2].
  destruct (take_bytes _ l1) as [[t1 k1] q1], (take_bytes _ l2) as [[t2 k2] q2]. cbn [fst snd] in *. injection T1 as -> ->. destruct k2; auto.
Qed.
Lemma arun_eqv fuel max best : forall first l1 l2, eqv l1 l2 -> arun fuel max best first l1 = arun fuel max best first l2.
Proof.
  induction fuel as [|f IH]; intros first l1 l2 H; [reflexivity|]. cbn [arun]; unfold abody.
  destruct (ascan_eqv 0 false _ _ H) as [S1 S2]. destruct (ascan 0 false l1) as [[[t m] d] r1], (ascan 0 false l2) as [[[t2 m2] d2] r2]. cbn [fst snd] in S1, S2.
  injection S1 as -> -> ->. destruct (negb first && is_typ EOF t2); [reflexivity|]. destruct (negb (is_typ MSGLEN t2)); [reflexivity|]. destruct (max <? to_int m2); [reflexivity|].
  clear H. destruct (ascan_eqv m2 d2 _ _ S2) as [S1 S3]. clear S2. destruct (ascan m2 d2 r1) as [[[t m] d] r1'], (ascan m2 d2 r2) as [[[t3 m3] d3] r2']. cbn [fst snd] in S1, S3.
  injection S1 as -> -> ->. destruct (negb (is_typ WS t3)); [reflexivity|].
  destruct (ascan_eqv m3 d3 _ _ S3) as [S1 S4]. clear S3. destruct (ascan m3 d3 r1') as [[[t m] d] r1''], (ascan m3 d3 r2') as [[[t4 m4] d4] r2'']. cbn [fst snd] in S1, S4.
  injection S1 as -> -> ->. destruct (negb (is_typ SYSLOGMSG t4)); [reflexivity|]. destruct (answer best (tlit t4)) as [mm e].
  rewrite (IH false _ _ S4). reflexivity.
Qed.
Lemma arun_more f max best : forall first l rs, arun f max best first l = Some rs -> forall k, (f <= k)%nat -> arun k max best first l = Some rs.
Proof.
  induction f as [|f IH]; intros first l rs H k Hk; [discriminate|]. destruct k as [|k]; [lia|]. cbn [arun] in *; unfold abody in *.
  destruct (ascan 0 false l) as [[[t m] d] r]. destruct (negb first && is_typ EOF t); [exact H|]. destruct (negb (is_typ MSGLEN t)); [exact H|]. destruct (max <? to_int m); [exact H|].
  destruct (ascan m d r) as [[[t2 m2] d2] r2]. destruct (negb (is_typ WS t2)); [exact H|].
  destruct (ascan m2 d2 r2) as [[[t3 m3] d3] r3]. destruct (negb (is_typ SYSLOGMSG t3)); [exact H|]. destruct (answer best (tlit t3)) as [mm e].
  assert (Hr : forall q, match arun f max best false r3 with Some rs => Some (q :: rs) | None => None end = Some rs -> match arun k max best false r3 with Some rs => Some (q :: rs) | None => None end = Some rs).
  { intros q Hq. destruct (arun f max best false r3) as [rs'|] eqn:E; [|discriminate]. rewrite (IH _ _ _ E k) by lia. exact Hq. }
  destruct best; [apply Hr; exact H|]. destruct e; [exact H|apply Hr; exact H].
Qed.


Lemma cscan_id cap ml rdy l : to_int ml <= cap -> cscan cap ml rdy l = ascan ml rdy l.
Proof.
  intros H. unfold cscan, ascan. destruct (aread l) as [c r]. destruct (is_nonzero_digit c); [reflexivity|]. destruct (beqb c x00); [reflexivity|]. destruct (beqb c " "); [reflexivity|].
  destruct (_ && _ && _); [|reflexivity]. destruct (to_int ml <? 0); [reflexivity|]. rewrite Z.min_l by lia. destruct (Z.leb_spec (to_int ml) cap); [|lia].
  destruct (take_bytes _ l) as [[t k] q]. rewrite andb_true_r. destruct k; reflexivity.
Qed.
Lemma crun_id cap max best : 0 <= cap -> max <= cap -> forall f first l, crun cap f max best first l = arun f max best first l.
Proof.
  intros H0 Hm. induction f as [|f IH]; intros first l; [reflexivity|]. cbn [crun arun]. rewrite cscan_id by (unfold to_int; cbn; lia).
  destruct (ascan 0 false l) as [[[tok ml] rdy] r]. destruct (negb first && is_typ EOF tok); [reflexivity|]. unfold cbody, abody.
  destruct (negb (is_typ MSGLEN tok)); [reflexivity|]. destruct (Z.ltb_spec max (to_int ml)) as [|Hl]; [reflexivity|]. rewrite cscan_id by lia.
  destruct (ascan ml rdy r) as [[[tok2 ml2] rdy2] r2] eqn:E2. destruct (is_typ WS tok2) eqn:Et; cbn [negb]; [|reflexivity].
  rewrite <- (cscan_id cap) in E2 by lia. rewrite (cscan_ws _ _ _ _ _ _ _ _ E2 Et). rewrite cscan_id by lia.
  destruct (ascan ml rdy2 r2) as [[[tok3 ml3] rdy3] r3]. destruct (negb (is_typ SYSLOGMSG tok3)); [reflexivity|]. destruct (answer best (tlit tok3)) as [m e]. rewrite IH. reflexivity.
Qed.
Lemma ascan_range ml rdy l tok ml' rdy' r : 0 <= ml < 2 ^ 64 -> ascan ml rdy l = (tok, ml', rdy', r) -> 0 <= ml' < 2 ^ 64.
Proof. intros H E. rewrite <- (cscan_id (2 ^ 64)) in E by (unfold to_int; destruct (Z.ltb_spec ml (2 ^ 63)); lia). eapply cscan_range; eauto. Qed.
Lemma ascan_ws ml rdy l tok ml' rdy' r : ascan ml rdy l = (tok, ml', rdy', r) -> is_typ WS tok = true -> ml' = ml.
Proof. intros E. rewrite <- (cscan_id (to_int ml)) in E by lia. eapply cscan_ws; eauto. Qed.
Lemma ascan_msg ml rdy l tok ml' rdy' r : ascan ml rdy l = (tok, ml', rdy', r) -> is_typ SYSLOGMSG tok = true -> ml' = 0 /\ rdy' = false.
Proof. intros E. rewrite <- (cscan_id (to_int ml)) in E by lia. eapply cscan_msg; eauto. Qed.

Lemma buffer_size rd max : max < 2 ^ 63 - 20 -> max <= f_size (s_r (new_scanner rd max)).
Proof.
  intros H. cbn [new_scanner s_r new_reader_size f_size]. unfold add_int, to_int. destruct (Z.le_gt_cases max 16); [lia|]. rewrite Z.mod_small by lia.
  destruct (Z.ltb_spec (max + 20) (2 ^ 63)); lia.
Qed.
Lemma stream_spec p rd : p_max p < 2 ^ 63 - 20 -> p_stepback p = false -> pok p ->
  exists rs p', parse_stream p rd = Some (rs, p') /\ arun (S (rd_size rd)) (p_max p) (p_best p) true (delivered rd) = Some rs /\ same_options p p'.
Proof.
  intros Hm Hsb Hp. destruct (stream_spec_c p rd Hsb Hp) as [rs [p' [E1 [E2 E3]]]]. exists rs, p'. rewrite crun_id in E2; auto; [cbn; lia|]. apply buffer_size. exact Hm.
Qed.
