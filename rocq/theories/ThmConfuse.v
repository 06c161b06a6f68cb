(* C74: the two message formats and the two framings are not taken for each other. *)
From Verif Require Import Bytes GotoLang GoTime Cal CommonFacts.
From Verif Require Import Grammar5424 Gram5424.
From Verif Require M5424Def M5424 Thm5424 M3164Def M3164 Grammar3164 Spec3164 Ref3164 Gram3164 Thm3164.
From Verif Require Import M5424Def Bufio MOctet SpecOctet ROctet ThmOctet.
From Verif Require NonTransparentBaseDef MNT SpecNT ThmNT.
Local Open Scope Z_scope.

(* ---------- where the texts differ ---------- *)
Lemma split_gt p1 : forall p2 r1 r2, ~ In ">"%byte p1 -> ~ In ">"%byte p2 -> p1 ++ ">"%byte :: r1 = p2 ++ ">"%byte :: r2 -> p1 = p2 /\ r1 = r2.
Proof.
  induction p1 as [|b p1 IH]; intros [|c p2] r1 r2 H1 H2 E; cbn in E.
  - injection E as ->. auto.
  - injection E as E1 E2. subst c. destruct H2. left. reflexivity.
  - injection E as E1 E2. subst b. destruct H1. left. reflexivity.
  - injection E as E1 E2. destruct (IH p2 r1 r2) as [-> ->]; [intros H; apply H1; right; exact H|intros H; apply H2; right; exact H|exact E2|]. subst. auto.
Qed.
Lemma digits_gt s : Forall digit s -> ~ In ">"%byte s.
Proof. intros H Hin. rewrite Forall_forall in H. apply H in Hin. unfold digit in Hin. cbn in Hin. lia. Qed.
(* the text after the version starts with one to three digits and a space *)
Definition versioned (r : bytes) : Prop := exists ver v x, version_text ver v /\ r = ver ++ " "%byte :: x.
Lemma versioned_space r : versioned r -> (exists a x, r = a :: x /\ digit a) /\ exists n, (1 <= n <= 3)%nat /\ nth_error r n = Some " "%byte.
Proof.
  intros [ver [v [x [H ->]]]]. apply version_cases in H as [[a [-> [Ha _]]]|[[a [b [-> [Ha [Hb _]]]]]|[a [b [c [-> [Ha [Hb [Hc _]]]]]]]]]; apply btw_prop in Ha;
    (split; [eexists _, _; split; [reflexivity|unfold digit; lia]|]); [exists 1%nat|exists 2%nat|exists 3%nat]; (split; [lia|reflexivity]).
Qed.
Lemma four_digits s : (exists y r v, s = y ++ r /\ num 4 y 0 9999 v) -> forall n, (n <= 3)%nat -> nth_error s n <> Some " "%byte.
Proof.
  intros [y [r [v [-> [L [D _]]]]]] n Hn E. rewrite nth_error_app1 in E by lia. apply nth_error_In in E. rewrite Forall_forall in D. apply D in E. unfold digit in E. cbn in E. lia.
Qed.
Lemma month_first s : (exists mon mo r, s = mon ++ r /\ In (mon, mo) Grammar3164.month_names) -> exists a x, s = a :: x /\ ~ digit a.
Proof.
  intros [mon [mo [r [-> H]]]]. cbn [Grammar3164.month_names In] in H.
  repeat (destruct H as [H|H]; [injection H as <- _; eexists _, _; split; [reflexivity|unfold digit; cbn; lia]|]). destruct H.
Qed.
Lemma stamp_no r s r' : versioned r -> Grammar3164.stamp_like s -> r <> s ++ r'.
Proof.
  intros H [mon [dd [hh [mi [ss [mo [d [h [m [sec [-> [Hm _]]]]]]]]]]]] E. destruct (versioned_space r H) as [[a [x [-> Ha]]] _].
  destruct (month_first (mon ++ lit " " ++ dd ++ lit " " ++ hh ++ lit ":" ++ mi ++ lit ":" ++ ss)) as [b [y [Eb Hb]]]; [eauto 6|]. rewrite Eb in E. injection E as <- _. tauto.
Qed.
Lemma like_no r s : versioned r -> Grammar3164.rfc3339_like s -> firstn 19 s <> firstn 19 r.
Proof.
  intros H [yyyy [mm [dd [hh [mi [ss [zo [y [mo [d [h [m [sec [off [-> [Hy _]]]]]]]]]]]]]]]] E. destruct (versioned_space r H) as [_ [n [Hn En]]].
  assert (G : forall l : bytes, nth_error (firstn 19 l) n = nth_error l n).
  { intros l. clear -Hn. destruct Hn as [_ Hn]. destruct n as [|[|[|[|n]]]]; [| | | |lia]; destruct l as [|? [|? [|? [|? l]]]]; reflexivity. }
  apply (f_equal (fun l => nth_error l n)) in E. rewrite !G in E. rewrite En in E. revert E. apply four_digits; [eauto|lia].
Qed.
Lemma field_no c r s t r' : versioned r -> Grammar3164.ts_field c s t -> r <> s ++ r'.
Proof.
  intros H F E. destruct (versioned_space r H) as [[a [x [Ea Ha]]] [n [Hn En]]].
  destruct F as [[p [[mon [dd [hh [mi [ss [Es [Hm _]]]]]]] _]]|[_ [[yyyy [mo [dd [hh [mi [ss [fr [zo [Es [Hy _]]]]]]]]]] _]]].
  - destruct (month_first (s ++ r')) as [b [y [Eb Hb]]]; [rewrite Es, <- app_assoc; eauto|]. rewrite <- E, Ea in Eb. injection Eb as <- _. tauto.
  - revert En. rewrite E. apply four_digits; [|lia]. rewrite Es, <- app_assoc. eauto.
Qed.

Notation parse5 := M5424.parse.
Notation parse3 := M3164.parse.
(* an input that the RFC 5424 machine accepts *)
Lemma accepted_versioned m5 data r : snd (parse5 m5 data) = M5424.Ret r None -> exists pri p x, data = lit "<" ++ pri ++ lit ">" ++ x /\ pri_text pri p /\ versioned x
  /\ forall msg, r = Some msg -> M5424.facility msg = Some (p / 8) /\ M5424.severity msg = Some (p mod 8) /\ M5424.priority msg = Some p.
Proof.
  intros H. destruct (proj1 (Thm5424.parse_no_error_iff_grammar m5 data) (ex_intro _ r H)) as [msg G].
  pose proof (proj2 (Thm5424.parse_accepts_grammar m5 data msg) G) as H'. rewrite H in H'. injection H' as ->.
  destruct G as [pri [ver [ts [host [app [proc [mid [sd [tail [p [v [t [s [g [-> [Hp [Hv [_ [_ [_ [_ [_ [_ [_ ->]]]]]]]]]]]]]]]]]]]]]]]]. unfold syslog_text. eexists pri, p, _. split; [reflexivity|]. split; [exact Hp|].
  split; [exists ver, v; eexists; split; [exact Hv|]; reflexivity|]. intros msg E. injection E as <-. auto.
Qed.
Lemma spec3_versioned c pri p x : pri_text pri p -> versioned x ->
  Spec3164.spec3164 c (lit "<" ++ pri ++ lit ">" ++ x) = Spec3164.PBad (Some (Spec3164.pri_msg p))
    (if M3164Def.rfc3339 c then None else Some (M3164Def.PErr M3164Def.ETimestamp (Spec3164.len pri + 2))).
Proof.
  intros Hp Hx. change (lit "<" ++ pri ++ lit ">" ++ x) with ("<"%byte :: pri ++ ">"%byte :: x). unfold Spec3164.spec3164. rewrite (Gram3164.p_pri_at _ pri p x Hp).
  destruct (versioned_space x Hx) as [[a [y [-> Ha]]] _]. destruct (M3164Def.rfc3339 c) eqn:Ec.
  - apply Thm3164.p_ts_quiet. split; [exact Ec|]. split; [eauto|]. intros s Hs. apply like_no; assumption.
  - unfold Spec3164.p_ts. rewrite Ec, Bool.andb_false_r. unfold digit in Ha. cbn [Spec3164.scan].
    assert (E : A3164.st_next 4 (bN a) = None) by (clear -Ha; destruct a; cbn in Ha; try reflexivity; lia). rewrite E. cbn [Spec3164.len length]. rewrite Z.add_0_r. reflexivity.
Qed.

(* C74, formats.  An input accepted by an RFC 5424 machine (any options) is never accepted by an RFC 3164 machine: without WithRFC3339 it
   is refused with the timestamp error at the byte after PRI, with WithRFC3339 the machine keeps quiet (no error); the message is nil or,
   in best effort mode, carries the priority and nothing else. *)
Theorem rfc5424_not_rfc3164 m5 m3 data msg : snd (parse5 m5 data) = M5424.Ret (Some msg) None ->
  exists pri rest, data = lit "<" ++ pri ++ lit ">" ++ rest /\ Forall digit pri /\
  snd (parse3 m3 data) = M3164.Ret
    (if M3164.bestEffort m3 then Some (M3164.Message (M5424.facility msg) (M5424.severity msg) (M5424.priority msg) None None None None None) else None)
    (if M3164Def.rfc3339 (M3164.config_of m3) then None else Some (M3164Def.PErr M3164Def.ETimestamp (Z.of_nat (length pri) + 2))).
Proof.
  intros H. destruct (accepted_versioned m5 data _ H) as [pri [p [x [E [Hp [Hx G]]]]]]. destruct (G msg eq_refl) as [-> [-> ->]].
  exists pri, x. split; [exact E|]. split; [apply Hp|]. rewrite (proj1 (Ref3164.parse_spec m3 data)), E, (spec3_versioned _ pri p x Hp Hx). cbn [Ref3164.ret_of].
  destruct (M3164.bestEffort m3), (M3164Def.rfc3339 (M3164.config_of m3)); reflexivity.
Qed.

(* ... and an input the RFC 3164 machine accepts, with any options, is an error for every RFC 5424 machine *)
Theorem rfc3164_not_rfc5424 m5 m3 data msg : snd (parse3 m3 data) = M3164.Ret (Some msg) None -> M3164.bestEffort m3 = false ->
  exists r e, snd (parse5 m5 data) = M5424.Ret r (Some e).
Proof.
  intros H Hb. destruct (Thm5424.parse_total m5 data) as [r [[e|] P]]; [eauto|]. exfalso.
  destruct (accepted_versioned m5 data _ P) as [pri [p [x [E [Hp [Hx _]]]]]].
  rewrite (proj1 (Ref3164.parse_spec m3 data)), E, (spec3_versioned _ pri p x Hp Hx), Hb in H. discriminate.
Qed.

Example confuse_hypotheses : let data := lit "<165>4 2018-10-11T22:14:15.003Z mymach.it e - 1 [ex@32473 iut=""3""] An application event" in
  exists msg, snd (parse5 (M5424.new_machine false false) data) = M5424.Ret (Some msg) None.
Proof. eexists. vm_compute. reflexivity. Qed.

(* ---------- framings ---------- *)
Lemma byte_eq_dec (a b : byte) : {a = b} + {a <> b}.
Proof. destruct (beqb a b) eqn:E; [left; apply beqb_eq; exact E|right; intros ->; rewrite beqb_refl in E; discriminate]. Qed.
Lemma split_first (t : byte) data : In t data -> exists a r, data = a ++ t :: r /\ ~ In t a.
Proof.
  induction data as [|c data IH]; intros H; [destruct H|]. destruct (byte_eq_dec c t) as [->|Hc]; [exists [], data; split; [reflexivity|intros []]|].
  destruct IH as [a [r [-> Ha]]]; [destruct H; congruence|]. exists (c :: a), r. split; [reflexivity|]. intros [E|E]; tauto.
Qed.
Lemma split_last (t : byte) data : exists b rest : bytes, data = b ++ rest /\ ~ In t rest /\ (b = [] \/ exists b', b = b' ++ [t]).
Proof.
  induction data as [|c data [b [rest [-> [Hr Hb]]]]]; [exists [], []; split; [reflexivity|]; split; [intros []|auto]|].
  destruct Hb as [-> |[b' ->]]; [|exists (c :: b' ++ [t]), rest; split; [reflexivity|]; split; [exact Hr|]; right; exists (c :: b'); reflexivity].
  destruct (byte_eq_dec c t) as [->|Hc]; [exists [t], rest; split; [reflexivity|]; split; [exact Hr|]; right; exists []; reflexivity|].
  exists [], (c :: rest). split; [reflexivity|]. split; [intros [E|E]; tauto|auto].
Qed.
(* C74, framings.  The octet counting parser refuses a stream whose first byte is '<': one result, with an error, nothing else. *)
Theorem octet_refuses_unframed opts before rd u : opts_max opts < 2 ^ 63 - 20 -> well_behaved rd -> content rd = "<"%byte :: u ->
  emitted opts before rd = Some [Result None (Some (EFound (Token ILLEGAL (lit "<")) MSGLEN))].
Proof.
  intros Hm Hw Hc. apply stream_outcome_iff; [exact Hm|]. apply out_malformed; [|left; reflexivity]. apply ml_no_length; [|discriminate].
  pose proof (proj1 (next_eqv _ _ (delivered_well_behaved rd Hw))) as E. rewrite Hc in E.
  destruct (delivered rd) as [|[b|] r]; cbn in E; try discriminate. injection E as ->. apply fd_other; [discriminate|discriminate|]. unfold digit. cbn. lia.
Qed.
(* ... and so whole streams of the other framing: any messages, each followed by the trailer *)
Corollary octet_refuses_nt_stream opts before rd t ms rest : opts_max opts < 2 ^ 63 - 20 -> well_behaved rd -> ms <> [] -> Forall (SpecNT.one_message t) ms ->
  content rd = SpecNT.framed t ms ++ rest -> emitted opts before rd = Some [Result None (Some (EFound (Token ILLEGAL (lit "<")) MSGLEN))].
Proof.
  intros Hm Hw Hn HF Hc. destruct ms as [|m ms]; [destruct (Hn eq_refl)|]. inversion HF as [|? ? [[u Hu] _] _]; subst m. eapply octet_refuses_unframed; [exact Hm|exact Hw|]. rewrite Hc. reflexivity.
Qed.

(* The non-transparent parser given a stream that does not start with '<', such as an octet counting stream, emits at most one result and
   it carries an error. *)
Theorem nt_refuses_counted d opts data e : (forall u, data <> "<"%byte :: u) ->
  SpecNT.nfresh d opts data e = Some [] \/ exists r x, SpecNT.nfresh d opts data e = Some [r] /\ NonTransparentBaseDef.nr_err r = Some x.
Proof.
  intros Hlt. set (t := SpecNT.nopts_trailer opts). destruct (in_dec byte_eq_dec t data) as [Hin|Hn].
  - destruct (split_first t data Hin) as [a [r [-> Ha]]]. destruct (split_last t r) as [b [rest [-> [Hr Hb]]]].
    assert (Hlt' : forall u, a <> "<"%byte :: u) by (intros u ->; apply (Hlt (u ++ t :: b ++ rest)); reflexivity).
    pose proof (ThmNT.nt_bad_start d opts a b rest e Ha Hlt' Hr Hb) as E. cbn zeta in E. fold t in E. rewrite E. clear E.
    destruct (MNT.d_fsm_error d) eqn:Ed; [destruct rest as [|c rest]; [left; reflexivity|]|left; reflexivity|]; right; eexists _, _; (split; [reflexivity|reflexivity]).
  - destruct data as [|c data]; [left; exact (ThmNT.nt_messages d opts [] e (Forall_nil _))|].
    right. eexists _, _. split; [exact (ThmNT.nt_unterminated d opts [] (c :: data) e (Forall_nil _) Hn ltac:(discriminate))|]. reflexivity.
Qed.
Corollary nt_refuses_counted_frames d opts max f rest e : frame_ok max f ->
  SpecNT.nfresh d opts (frame_text f ++ rest) e = Some [] \/ exists r x, SpecNT.nfresh d opts (frame_text f ++ rest) e = Some [r] /\ NonTransparentBaseDef.nr_err r = Some x.
Proof.
  intros [Hne [Hd _]]. apply nt_refuses_counted. unfold frame_text. destruct (f_len f) as [|c w]; [congruence|]. intros u E. cbn in E. injection E as -> _.
  inversion Hd as [|? ? H1 _]; subst. unfold digit in H1. cbn in H1. lia.
Qed.
Example counted_ex : exists d, SpecNT.nfresh d [] (lit "16 <1>1 - - - - - -17 <12>3 - - - - - -") MNT.AtEOF <> Some [].
Proof. exists (MNT.Driver MNT.Continue true true). vm_compute. discriminate. Qed.
Example confuse_hypotheses3 : exists msg, snd (parse3 (M3164.new_machine false (M3164Def.Config 0 true None None)) (lit "<34>Jan 12 06:30:00 xxx apache[7]: hello")) = M3164.Ret (Some msg) None
  /\ M3164.msg msg = Some (lit "hello").
Proof. eexists. split; vm_compute; reflexivity. Qed.
Example unframed_ex : let data := SpecNT.framed "010"%byte [lit "<1>1 - - - - - -"] in
  well_behaved [(data, None)] /\ Forall (SpecNT.one_message "010"%byte) [lit "<1>1 - - - - - -"] /\
  emitted [] [] [(data, None)] = Some [Result None (Some (EFound (Token ILLEGAL (lit "<")) MSGLEN))].
Proof.
  cbn zeta. split; [|split; [|vm_compute; reflexivity]].
  - split; [intros [|? [|? ?]] c e post E; cbn in E; try discriminate; injection E; congruence|].
    intros pre mid post E HF. assert (L : (length pre + (length mid + length post) = 1)%nat) by (rewrite <- !app_length, <- E; reflexivity). lia.
  - constructor; [|constructor]. split; [eexists; reflexivity|]. intros a b E. apply (f_equal (@In byte "010"%byte)) in E.
    assert (H : In "010"%byte (lit "<1>1 - - - - - -")) by (rewrite E; apply in_or_app; right; left; reflexivity).
    revert H. cbn. intros H. repeat (destruct H as [H|H]; [discriminate H|]). exact H.
Qed.
