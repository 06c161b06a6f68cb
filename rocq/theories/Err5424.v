(* rfc5424: the error a machine remembers (Err) is the one its last call of Parse returned. *)
From Verif Require Import Bytes GoMap GoTime Common GotoLang M5424Def Gen5424 A5424 M5424 Spec5424 Ref5424a Ref5424b Ref5424c.

(* on every path of a transition, what follows an error action is the fail state or the end in a rejecting state;
   seen: the error was set before *)
Definition is_err (a : act) : bool := match a with AErr _ | AErrTime => true | _ => false end.
Definition is_fail (s : st) : bool := match s with SFail => true | _ => false end.
Definition rejecting (cs : N) : bool := ((cs <? 603) || (cs =? 614))%N.
Fixpoint clean (seen : bool) (t : tree act cnd st) : bool :=
  match t with
  | TNext s => negb seen || is_fail s
  | TOut cs => negb seen || rejecting cs
  | TAct a t => clean (seen || is_err a) t
  | TIf _ t e => clean seen t && clean seen e
  | TBad => true
  end.
Lemma clean_fail b seen : clean seen (fail b) = true.
Proof. unfold fail. destruct (_ || _); destruct seen; reflexivity. Qed.
Ltac split_ifs := repeat match goal with |- context [if ?c then _ else _] => destruct c | |- context [match ?c with Some _ => _ | None => _ end] => destruct c as [?|] | |- context [match ?c with FHost => _ | FApp => _ | FProc => _ | FMsgid => _ end] => destruct c end.
Ltac clean_tac := cbn [acts clean is_err orb andb negb is_fail rejecting]; rewrite ?clean_fail; try reflexivity.
Lemma clean_delta s b : clean (is_fail s) (delta s b) = true.
Proof.
  destruct s; cbn [is_fail]; unfold delta, val_t, time_t, sdid_err, setid_t, param_err, setval_t, msg_err, errt; cbn zeta; split_ifs; try match goal with f : fld |- _ => destruct f end; clean_tac.
Qed.
Lemma clean_edelta s : clean (is_fail s) (edelta s) = true.
Proof.
  destruct s; cbn [is_fail]; unfold edelta, time_t, sdid_err, setid_t, param_err, msg_err, errt, efail; try match goal with f : fld |- _ => destruct f end; split_ifs; clean_tac.
Qed.
Lemma sem_act_err a data p x y : is_err a = false -> sem_act a data p x = Some y -> m_err y = m_err x.
Proof.
  unfold sem_act, with_text. destruct a; cbn [is_err]; intros H; try discriminate H;
  repeat match goal with |- context [match ?e with _ => _ end] => destruct e end; intros H'; try discriminate H'; injection H' as <-; reflexivity.
Qed.
Lemma texec_err t data p : forall x seen nx cs y, clean seen t = true -> (seen = false -> m_err x = None) ->
  (forall s x', (is_fail s = false -> m_err x' = None) -> nx s x' = Out cs y -> rejecting cs = false -> m_err y = None) ->
  texec sem_act sem_cnd data t p x nx = Out cs y -> rejecting cs = false -> m_err y = None.
Proof.
  induction t as [s|c|a t IH|c t IHt e IHe|]; intros x seen nx cs y Hc Hx Hn; cbn [texec clean] in *.
  - intros H Hr. eapply Hn; [|exact H|exact Hr]. intros Hs. rewrite Hs, orb_false_r in Hc. apply negb_true_iff in Hc. auto.
  - intros H Hr. injection H as <- <-. rewrite Hr, orb_false_r in Hc. apply negb_true_iff in Hc. auto.
  - destruct (sem_act a data p x) as [x'|] eqn:E; [|discriminate]. apply (IH x' (seen || is_err a)%bool); auto.
    intros Hs. apply orb_false_iff in Hs as [H1 H2]. rewrite (sem_act_err _ _ _ _ _ H2 E). auto.
  - apply andb_true_iff in Hc as [H1 H2]. destruct (sem_cnd c x); eauto.
  - discriminate.
Qed.
Lemma arun_err data rest : forall s p x cs y, (is_fail s = false -> m_err x = None) -> run5424 data s p rest x = Out cs y -> rejecting cs = false -> m_err y = None.
Proof.
  induction rest as [|b r IH]; intros s p x cs y Hx; cbn [arun].
  - eapply texec_err; [apply clean_edelta|exact Hx|discriminate].
  - eapply texec_err; [apply clean_delta|exact Hx|]. intros s' x' Hx' H' Hr. eapply IH; eauto.
Qed.
Theorem parse_err m data : match snd (parse m data) with Ret _ e => m_err (mv (fst (parse m data))) = e | _ => False end.
Proof.
  unfold parse. rewrite exec_run5424. pose proof (run_spec data (compliant m) (prepare (mv m)) eq_refl eq_refl) as H.
  destruct (run5424 data S1 0 data (prepare (mv m))) as [cs x| |] eqn:E; cbn [fst snd mv obs] in *; try (destruct (spec5424 (compliant m) data); discriminate H).
  destruct ((cs <? 603) || (cs =? 614))%N eqn:Er; [destruct (bestEffort m && minimal (m_out x)); reflexivity|]. eapply arun_err; [|exact E|exact Er]. reflexivity.
Qed.
