(* C68: the non-transparent parser hands a message to the listener only when the next one arrives, or the stream ends. *)
From Verif Require Import Bytes GotoLang Common M5424Def M5424 SpecOctet NonTransparentBaseDef MNT SpecNT ThmNT.
Local Open Scope Z_scope.

(* What a new parser has handed to the listener when the bytes data have been read and the reader blocks (nontransparent/parser.go:257-260:
   Exec has run on each window that ends with a trailer, and neither OnErr, OnEOF nor OnCompletion has been called); None: panic *)
Definition nso_far (d : driver) (opts : list nopt) (data : bytes) : option (list nresult) :=
  let x := set_n_out [] (nnew_parser opts) in
  match exec_windows d 1 (fst (windows (n_trailer x) data)) x with Some (_, _, y) => Some (n_out y) | None => None end.

Lemma windows_rest t ms rest : ~ In t rest -> fst (windows t (framed t ms ++ rest)) = fst (windows t (framed t ms)).
Proof.
  intros Hn. destruct ms as [|m0 ms0]; [cbn; rewrite windows_none by exact Hn; reflexivity|].
  destruct (exists_last (l := m0 :: ms0) ltac:(discriminate)) as [ms' [m ->]].
  unfold framed. rewrite map_app, concat_app. cbn [map concat]. rewrite app_nil_r, <- !app_assoc. cbn [app]. rewrite app_assoc, (windows_app t _ rest), (app_assoc _ m [t]).
  cbn [fst]. rewrite (windows_none t rest Hn). cbn [fst]. rewrite app_nil_r. reflexivity.
Qed.

Theorem nt_lag d opts ms m rest : let t := nopts_trailer opts in
  Forall (one_message t) ms -> one_message t m -> ~ In t rest ->
  nso_far d opts (framed t (ms ++ [m]) ++ rest) = Some (map (nanswer (nopts_best opts)) ms).
Proof.
  cbn zeta. intros HF Hm Hn. destruct (nnew_opts opts) as [Hx [Ht [Hb [Hc [Hl Hr]]]]]. unfold nso_far. set (x := set_n_out [] (nnew_parser opts)).
  assert (Kx : kept (nnew_parser opts) x) by (apply kept_out; exact Hx).
  assert (Tx : n_trailer x = nopts_trailer opts) by exact Ht. assert (Bx : n_best x = nopts_best opts) by exact Hb. rewrite <- Tx, <- Bx in *.
  rewrite windows_rest by exact Hn.
  destruct (exec_messages d (ms ++ [m]) 1%N x (proj1 Kx) (or_introl eq_refl)) as [cs [y [E [K [_ [A [_ [_ D]]]]]]]].
  { apply Forall_app. split; [exact HF|constructor; [exact Hm|constructor]]. }
  rewrite E. f_equal. rewrite A in D. assert (Cx : n_cand x = []) by exact Hc. rewrite Cx in D. cbn [pend app] in D.
  change (n_out x) with (@nil nresult) in D. cbn [app] in D.
  assert (P : pend (n_trailer x) (n_best x) (m ++ [n_trailer x]) = [nanswer (n_best x) m]).
  { unfold pend. rewrite chop_trailer. destruct (m ++ [n_trailer x]) eqn:Em; [destruct m; discriminate|reflexivity]. }
  destruct (ms ++ [m]) as [|m0 l0] eqn:El; [destruct ms; discriminate|]. rewrite <- El in D.
  match type of D with _ ++ pend _ _ ?c = _ => assert (Ec : c = m ++ [n_trailer x]) by (rewrite last_last; reflexivity); rewrite Ec, P, map_app in D end.
  cbn [map] in D. apply app_inj_tail in D. apply D.
Qed.

(* the hypotheses are met: two complete messages, the second containing the trailer, and the start of a third: only the first is out *)
Example nt_lag_ex d : Forall (one_message "010"%byte) [msg1] /\ one_message "010"%byte msg_with_lf /\ ~ In "010"%byte (lit "<1>1 - -")
  /\ nso_far d [NOBestEffort] (framed "010"%byte ([msg1] ++ [msg_with_lf]) ++ lit "<1>1 - -") = Some [nanswer true msg1].
Proof.
  pose proof one_message_ex as H. inversion H as [|? ? H1 H']; subst. inversion H' as [|? ? H2 _]; subst.
  split; [constructor; [exact H1|constructor]|]. split; [exact H2|].
  assert (H3 : ~ In "010"%byte (lit "<1>1 - -")) by (vm_compute; intuition discriminate). split; [exact H3|].
  apply (nt_lag d [NOBestEffort] [msg1] msg_with_lf (lit "<1>1 - -")); [constructor; [exact H1|constructor]|exact H2|exact H3].
Qed.
