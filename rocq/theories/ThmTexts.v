(* C51: facility and severity texts of the messages made by the parsers and by the builder. *)
From Verif Require Import Bytes GoTime Common CommonFacts Texts.
From Verif Require M5424 Grammar5424 Spec5424 Ref5424c Props5424 Thm5424 MBuilder BWf ThmBuilder M3164 Grammar3164 Ref3164 Spec3164 Thm3164.
Local Open Scope Z_scope.

(* ---------- specification: the texts of RFC 5424 section 6.2.1 codes, in the order of the codes ---------- *)
Definition facility_texts : list bytes := map lit [
  "kernel messages"; "user-level messages"; "mail system messages"; "system daemons messages"; "authorization messages";
  "messages generated internally by syslogd"; "line printer subsystem messages"; "network news subsystem messages"; "UUCP subsystem messages";
  "clock daemon messages"; "security/authorization messages"; "ftp daemon messages"; "NTP subsystem messages"; "audit messages"; "console messages";
  "clock daemon messages"; "local use 0 (local0)"; "local use 1 (local1)"; "local use 2 (local2)"; "local use 3 (local3)"; "local use 4 (local4)";
  "local use 5 (local5)"; "local use 6 (local6)"; "local use 7 (local7)"]%string.
(* RFC 5427, SyslogFacility *)
Definition rfc5427_facilities : list bytes := map lit [
  "kern"; "user"; "mail"; "daemon"; "auth"; "syslog"; "lpr"; "news"; "uucp"; "cron"; "authpriv"; "ftp"; "ntp"; "audit"; "console"; "cron2";
  "local0"; "local1"; "local2"; "local3"; "local4"; "local5"; "local6"; "local7"]%string.
(* RFC 5427, SyslogSeverity *)
Definition rfc5427_severities : list bytes := map lit ["emerg"; "alert"; "crit"; "err"; "warning"; "notice"; "info"; "debug"]%string.
Definition severity_levels : list bytes := map lit ["emergency"; "alert"; "critical"; "error"; "warning"; "notice"; "informational"; "debug"]%string.
Definition severity_texts : list bytes := map lit [
  "system is unusable"; "action must be taken immediately"; "critical conditions"; "error conditions"; "warning conditions";
  "normal but significant condition"; "informational messages"; "debug-level messages"]%string.
Definition code (z : Z) : nat := Z.to_nat z.

(* every text method of a message with priority p answers with the entry for p/8 or p mod 8 *)
Definition texts_of (p : Z) (m : base) : Prop :=
  FacilityMessage m = nth_error facility_texts (code (p / 8))
  /\ FacilityLevel m = (if p / 8 =? 13 then Some (lit "security") else nth_error rfc5427_facilities (code (p / 8)))
  /\ SeverityMessage m = nth_error severity_texts (code (p mod 8))
  /\ SeverityLevel m = nth_error severity_levels (code (p mod 8))
  /\ SeverityShortLevel m = nth_error rfc5427_severities (code (p mod 8)).
Definition no_texts (m : base) : Prop :=
  FacilityMessage m = None /\ FacilityLevel m = None /\ SeverityMessage m = None /\ SeverityLevel m = None /\ SeverityShortLevel m = None.

(* ---------- proofs ---------- *)
Lemma cases24 (P : Z -> Prop) : (forall n, (n < 24)%nat -> P (Z.of_nat n)) -> forall f, 0 <= f <= 23 -> P f.
Proof. intros H f Hf. rewrite <- (Z2Nat.id f) by lia. apply H. lia. Qed.
Lemma cases8 (P : Z -> Prop) : (forall n, (n < 8)%nat -> P (Z.of_nat n)) -> forall f, 0 <= f <= 7 -> P f.
Proof. intros H f Hf. rewrite <- (Z2Nat.id f) by lia. apply H. lia. Qed.
Ltac each n := do 24 (destruct n as [|n]; [vm_compute; auto|]); exfalso; lia.
Ltac each8 n := do 8 (destruct n as [|n]; [vm_compute; auto|]); exfalso; lia.
Lemma facility_rows f : 0 <= f <= 23 ->
  Some (index Facility f) = nth_error facility_texts (code f)
  /\ match find FacilityKeywords f with Some v => Some v | None => Some (index Facility f) end = (if f =? 13 then Some (lit "security") else nth_error rfc5427_facilities (code f)).
Proof. revert f. apply cases24. intros n Hn. each n. Qed.
Lemma severity_rows s : 0 <= s <= 7 ->
  Some (index SeverityMessages s) = nth_error severity_texts (code s) /\ Some (index SeverityLevels s) = nth_error severity_levels (code s)
  /\ Some (index SeverityLevelsShort s) = nth_error rfc5427_severities (code s).
Proof. revert s. apply cases8. intros n Hn. each8 n. Qed.
Lemma pri_ranges p : 0 <= p <= 191 -> 0 <= p / 8 <= 23 /\ 0 <= p mod 8 <= 7.
Proof.
  intros H. pose proof (Z.mod_pos_bound p 8). assert (p / 8 < 24) by (apply Z.div_lt_upper_bound; lia). pose proof (Z.div_pos p 8). lia.
Qed.
Lemma texts_fields p m : 0 <= p <= 191 -> f_facility m = Some (p / 8) -> f_severity m = Some (p mod 8) -> texts_of p m.
Proof.
  intros Hp H1 H2. destruct (pri_ranges p Hp) as [Hf Hs]. destruct (facility_rows _ Hf) as [A B]. destruct (severity_rows _ Hs) as [C [D E]].
  unfold texts_of, FacilityMessage, FacilityLevel, SeverityMessage, SeverityLevel, SeverityShortLevel. rewrite H1, H2. auto.
Qed.

(* the public ComputeFromPriority; every value of 0..191 *)
Theorem compute_texts p m : 0 <= p <= 191 -> texts_of p (ComputeFromPriority p m).
Proof. intros H. apply texts_fields; [exact H|reflexivity..]. Qed.
(* it accepts the other values of uint8 too: then the facility has the empty text, not nil *)
Theorem compute_texts_over p m : 192 <= p <= 255 ->
  FacilityMessage (ComputeFromPriority p m) = Some [] /\ FacilityLevel (ComputeFromPriority p m) = Some []
  /\ SeverityMessage (ComputeFromPriority p m) = nth_error severity_texts (code (p mod 8)).
Proof.
  intros H. unfold FacilityMessage, FacilityLevel, SeverityMessage. cbn [ComputeFromPriority f_facility f_severity].
  assert (Hf : 24 <= p / 8) by (apply Z.div_le_lower_bound; lia).
  assert (N : forall t, (forall k v, In (k, v) t -> k <= 23) -> find t (p / 8) = None).
  { intros t. induction t as [|[k v] r IH]; intros Ht; [reflexivity|]. cbn [find]. pose proof (Ht k v (or_introl eq_refl)).
    replace (k =? p / 8) with false by (symmetry; apply Z.eqb_neq; lia). apply IH. intros k' v' Hin. apply (Ht k' v'). right. exact Hin. }
  assert (N1 : find Facility (p / 8) = None) by (apply N; unfold Facility; cbn [In]; intros k v Hin; repeat (destruct Hin as [E|Hin]; [injection E as <- _; lia|]); destruct Hin).
  assert (N2 : find FacilityKeywords (p / 8) = None) by (apply N; unfold FacilityKeywords; cbn [In]; intros k v Hin; repeat (destruct Hin as [E|Hin]; [injection E as <- _; lia|]); destruct Hin).
  unfold index at 1 2. rewrite N1, N2. split; [reflexivity|]. split; [reflexivity|]. apply severity_rows. pose proof (Z.mod_pos_bound p 8). lia.
Qed.

(* the texts are there and are not empty *)
Definition texts_present (m : base) : Prop := forall f, In f [FacilityMessage; FacilityLevel; SeverityMessage; SeverityLevel; SeverityShortLevel] -> exists v, f m = Some v /\ v <> [].
Lemma nth_present l n : Forall (fun v : bytes => v <> []) l -> (n < length l)%nat -> exists v, nth_error l n = Some v /\ v <> [].
Proof.
  intros H Hn. destruct (nth_error l n) as [v|] eqn:E; [|apply nth_error_None in E; lia]. exists v. split; [reflexivity|].
  rewrite Forall_forall in H. apply H. eapply nth_error_In. exact E.
Qed.
Ltac all_ne := repeat (constructor; [discriminate|]); constructor.
Theorem texts_of_present p m : 0 <= p <= 191 -> texts_of p m -> texts_present m.
Proof.
  intros Hp [H1 [H2 [H3 [H4 H5]]]]. destruct (pri_ranges p Hp) as [Hf Hs]. assert (code (p / 8) < 24)%nat by (unfold code; lia). assert (code (p mod 8) < 8)%nat by (unfold code; lia).
  intros f [<-|[<-|[<-|[<-|[<-|[]]]]]].
  - rewrite H1. apply nth_present; [all_ne|assumption].
  - rewrite H2. destruct (p / 8 =? 13); [eexists; split; [reflexivity|discriminate]|]. apply nth_present; [all_ne|assumption].
  - rewrite H3. apply nth_present; [all_ne|assumption].
  - rewrite H4. apply nth_present; [all_ne|assumption].
  - rewrite H5. apply nth_present; [all_ne|assumption].
Qed.
(* the level texts determine the priority *)
Theorem levels_determine_priority p q m m' : 0 <= p <= 191 -> 0 <= q <= 191 -> texts_of p m -> texts_of q m' ->
  FacilityLevel m = FacilityLevel m' -> SeverityLevel m = SeverityLevel m' -> p = q.
Proof.
  intros Hp Hq Tp Tq E1 E2. destruct (pri_ranges p Hp) as [A1 A2]. destruct (pri_ranges q Hq) as [B1 B2].
  destruct Tp as [_ [P1 [_ [P2 _]]]]. destruct Tq as [_ [Q1 [_ [Q2 _]]]]. rewrite P1, Q1 in E1. rewrite P2, Q2 in E2.
  assert (F : p / 8 = q / 8).
  { clear - E1 A1 B1. set (kw := map lit ["kern"; "user"; "mail"; "daemon"; "auth"; "syslog"; "lpr"; "news"; "uucp"; "cron"; "authpriv"; "ftp"; "ntp"; "security"; "console"; "cron2";
      "local0"; "local1"; "local2"; "local3"; "local4"; "local5"; "local6"; "local7"]%string).
    assert (N : NoDup kw). { unfold kw. repeat (constructor; [cbn [In map]; intros H; repeat (destruct H as [H|H]; [discriminate|]); destruct H|]). constructor. }
    assert (K : forall f, 0 <= f <= 23 -> (if f =? 13 then Some (lit "security") else nth_error rfc5427_facilities (code f)) = nth_error kw (code f)).
    { apply cases24. intros n Hn. each n. }
    rewrite !K in E1 by assumption. apply (NoDup_nth_error kw) in E1; [|exact N|unfold code; cbn; lia]. unfold code in E1. lia. }
  assert (S : p mod 8 = q mod 8).
  { assert (N : NoDup severity_levels). { unfold severity_levels. repeat (constructor; [cbn [In map]; intros H; repeat (destruct H as [H|H]; [discriminate|]); destruct H|]). constructor. }
    apply (NoDup_nth_error severity_levels) in E2; [|exact N|unfold code; cbn; lia]. unfold code in E2. lia. }
  rewrite (Z.div_mod p 8), (Z.div_mod q 8), F, S by lia. reflexivity.
Qed.
(* the keywords are not quite those of RFC 5427, and two facilities share a text *)
Theorem facility_texts_refuted :
  FacilityLevel (ComputeFromPriority 104 (Base None None None)) <> nth_error rfc5427_facilities 13
  /\ FacilityMessage (ComputeFromPriority 72 (Base None None None)) = FacilityMessage (ComputeFromPriority 120 (Base None None None)).
Proof. split; [vm_compute; discriminate|reflexivity]. Qed.

(* ---------- RFC5424 messages ---------- *)
Definition base5424 (m : M5424.message) : base := Base (M5424.facility m) (M5424.severity m) (M5424.priority m).
Theorem texts5424 m data msg e : snd (M5424.parse m data) = M5424.Ret (Some msg) e ->
  exists p, M5424.priority msg = Some p /\ 0 <= p <= 191 /\ texts_of p (base5424 msg) /\ texts_present (base5424 msg).
Proof.
  intros H.
  assert (G : exists p, M5424.priority msg = Some p /\ 0 <= p <= 191 /\ M5424.facility msg = Some (p / 8) /\ M5424.severity msg = Some (p mod 8)).
  { rewrite (proj1 (Ref5424c.parse_spec m data)) in H. pose proof (Props5424.spec_minimal (Ref5424c.compliant m) data) as G.
    assert (X : forall o, (exists p ver, Props5424.minimally_valid data p /\ Props5424.hdr p ver o /\ 1 <= ver <= 999) -> M5424.export o = msg ->
       exists p, M5424.priority msg = Some p /\ 0 <= p <= 191 /\ M5424.facility msg = Some (p / 8) /\ M5424.severity msg = Some (p mod 8)).
    { intros o [p [ver [H1 [[_ [H2 _]] _]]]] <-. exists p. cbn. rewrite H2. split; [reflexivity|]. split; [apply (Props5424.minimally_valid_range data); exact H1|]. auto. }
    destruct (Spec5424.spec5424 _ data) as [o|[o|] e0]; cbn in H; [|destruct (M5424.bestEffort m); [|discriminate]|discriminate]; injection H as H _; exact (X o G H). }
  destruct G as [p [G1 [G2 [G3 G4]]]]. assert (T : texts_of p (base5424 msg)) by (apply texts_fields; assumption).
  exists p. split; [exact G1|]. split; [exact G2|]. split; [exact T|]. apply (texts_of_present p); assumption.
Qed.
(* built messages: no text at all until a priority in range has been set, afterwards the texts of the one set last *)
Definition last_priority (cs : list MBuilder.call) (p : Z) : Prop :=
  exists a b, cs = a ++ MBuilder.SetPriority p :: b /\ 0 <= p <= 191 /\ ~ ThmBuilder.set_good_priority b.
Lemma steps_app a : forall b g m, MBuilder.steps g m (a ++ b) = match MBuilder.steps g m a with Some (g1, m1) => MBuilder.steps g1 m1 b | None => None end.
Proof. induction a as [|c a IH]; intros b g m; [reflexivity|]. cbn [app MBuilder.steps]. destruct (MBuilder.step g m c) as [[g1 m1]|]; [apply IH|reflexivity]. Qed.
Lemma steps_keep_pri cs : forall g m g' m', BWf.wf m -> MBuilder.steps g m cs = Some (g', m') -> ~ ThmBuilder.set_good_priority cs -> M5424.priority m' = M5424.priority m.
Proof.
  induction cs as [|c r IH]; intros g m g' m' Hw H N; cbn [MBuilder.steps] in H; [injection H as <- <-; reflexivity|].
  destruct (ThmBuilder.set_exact_gen g m c) as [g1 [m1 [E He]]]. rewrite E in H. specialize (He (ThmBuilder.wf_names m Hw)).
  rewrite (IH g1 m1 g' m' (ThmBuilder.wf_effect _ _ _ Hw He) H); [|intros [p [Hin Hp]]; apply N; exists p; split; [right; exact Hin|exact Hp]].
  apply ThmBuilder.effect_pri in He as [[[p [-> [Hr _]]]|[_ Hp]] _]; [exfalso; apply N; exists p; split; [left; reflexivity|exact Hr]|exact Hp].
Qed.
Lemma last_priority_or cs : (exists p, last_priority cs p) \/ ~ ThmBuilder.set_good_priority cs.
Proof.
  induction cs as [|c r IH]; [right; intros [p [[] _]]|]. destruct IH as [[p [a [b [-> H]]]]|N]; [left; exists p, (c :: a), b; auto|].
  assert (D : (exists p, c = MBuilder.SetPriority p /\ 0 <= p <= 191) \/ forall p, c = MBuilder.SetPriority p -> ~ 0 <= p <= 191).
  { destruct c as [p| | | | | | | | |]; try (right; intros p0 E; discriminate E). destruct (Z_le_dec 0 p), (Z_le_dec p 191); [left; eauto|right; intros q Eq; injection Eq as <-; lia..]. }
  destruct D as [[p [-> Hp]]|D]; [left; exists p, [], r; auto|]. right. intros [p [[->|Hin] Hp]]; [exact (D p eq_refl Hp)|apply N; exists p; auto].
Qed.
Theorem texts_built g cs g' m : MBuilder.steps g MBuilder.empty_message cs = Some (g', m) ->
  (~ ThmBuilder.set_good_priority cs -> no_texts (base5424 m))
  /\ (forall p, last_priority cs p -> texts_of p (base5424 m) /\ texts_present (base5424 m))
  /\ ((exists p, last_priority cs p) \/ ~ ThmBuilder.set_good_priority cs).
Proof.
  intros H. assert (Hw : BWf.wf m) by (apply ThmBuilder.built_wf; exists cs, g, g'; exact H). pose proof (BWf.wf_pri _ Hw) as Hp. unfold BWf.good_pri in Hp.
  split; [|split; [|apply last_priority_or]].
  - intros N. rewrite (steps_keep_pri cs g _ g' m ThmBuilder.wf_empty H N) in Hp. cbn in Hp.
    unfold no_texts, FacilityMessage, FacilityLevel, SeverityMessage, SeverityLevel, SeverityShortLevel, base5424. cbn [f_facility f_severity]. destruct Hp as [-> ->]. auto.
  - intros p [a [b [-> [Hr N]]]]. rewrite steps_app in H. destruct (MBuilder.steps g MBuilder.empty_message a) as [[g1 m1]|] eqn:Ea; [|discriminate].
    cbn [MBuilder.steps MBuilder.step] in H. unfold valid_priority, in_between in H. replace ((0 <=? p) && (p <=? 191)) with true in H by (symmetry; rewrite andb_true_iff, !Z.leb_le; lia).
    assert (W1 : BWf.wf m1) by (apply ThmBuilder.built_wf; exists a, g, g1; exact Ea).
    assert (W2 : BWf.wf (MBuilder.compute_from_priority p m1)).
    { apply ThmBuilder.built_wf. exists (a ++ [MBuilder.SetPriority p]), g, g1. rewrite steps_app, Ea. cbn [MBuilder.steps MBuilder.step]. unfold valid_priority, in_between.
      replace ((0 <=? p) && (p <=? 191)) with true by (symmetry; rewrite andb_true_iff, !Z.leb_le; lia). reflexivity. }
    rewrite (steps_keep_pri b _ _ _ _ W2 H N) in Hp. cbn in Hp. destruct Hp as [_ [P1 P2]].
    assert (T : texts_of p (base5424 m)) by (apply texts_fields; assumption). split; [exact T|]. apply (texts_of_present p); assumption.
Qed.
Example texts_built_ex : exists g' m, MBuilder.steps (MBuilder.Globals [] []) MBuilder.empty_message [MBuilder.SetPriority 3; MBuilder.SetVersion 1; MBuilder.SetPriority 165; MBuilder.SetPriority 200] = Some (g', m)
  /\ last_priority [MBuilder.SetPriority 3; MBuilder.SetVersion 1; MBuilder.SetPriority 165; MBuilder.SetPriority 200] 165
  /\ FacilityLevel (base5424 m) = Some (lit "local4") /\ SeverityLevel (base5424 m) = Some (lit "notice").
Proof.
  do 2 eexists. split; [reflexivity|]. split; [|split; reflexivity]. exists [MBuilder.SetPriority 3; MBuilder.SetVersion 1], [MBuilder.SetPriority 200].
  split; [reflexivity|]. split; [lia|]. intros [p [[E|[]] Hp]]. injection E as <-. lia.
Qed.

(* ---------- RFC3164 messages ---------- *)
Definition base3164 (m : M3164.message) : base := Base (M3164.facility m) (M3164.severity m) (M3164.priority m).
Theorem texts3164 m data msg e : snd (M3164.parse m data) = M3164.Ret (Some msg) e ->
  exists p, M3164.priority msg = Some p /\ 0 <= p <= 191 /\ texts_of p (base3164 msg) /\ texts_present (base3164 msg).
Proof.
  intros H.
  assert (G : exists p, 0 <= p <= 191 /\ M3164.priority msg = Some p /\ M3164.facility msg = Some (p / 8) /\ M3164.severity msg = Some (p mod 8)).
  { set (m' := M3164.Machine (M3164.mv m) true).
    assert (H' : exists e', snd (M3164.parse m' data) = M3164.Ret (Some msg) e').
    { destruct (M3164.bestEffort m) eqn:Hb; [exists e; rewrite <- H; apply Thm3164.parse3164_independent; [symmetry; exact Hb|reflexivity]|].
      destruct (Thm3164.best3164_conservative m m' data Hb eq_refl eq_refl) as [C _]. exists None. apply C.
      pose proof H as H2. rewrite (proj1 (Ref3164.parse_spec m data)), Hb in H2. destruct (Spec3164.spec3164 _ data) as [o|[o|] e0]; cbn in H2; [|discriminate..]. injection H2 as _ He. rewrite He. exact H. }
    destruct H' as [e' H']. destruct (Thm3164.best3164_message_iff m' data eq_refl) as [[I _] J]. destruct I as [p Hp]; [eauto|].
    exists p. split; [|exact (J _ _ _ H' Hp)]. destruct Hp as [pri [[b [r [_ Hp]]] _]]. exact (proj1 (proj2 (proj2 Hp))). }
  destruct G as [p [G2 [G1 [G3 G4]]]]. assert (T : texts_of p (base3164 msg)) by (apply texts_fields; assumption).
  exists p. split; [exact G1|]. split; [exact G2|]. split; [exact T|]. apply (texts_of_present p); assumption.
Qed.
