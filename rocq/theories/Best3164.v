(* What best effort mode keeps of an RFC 3164 text (property C84): every field that can be read, and nothing else. *)
From Verif Require A5424 Spec5424.
From Verif Require Import Bytes GoTime Cal Common CommonFacts GotoLang M3164Def A3164 M3164 Spec3164 Ref3164 Grammar3164 Gram3164 Thm3164 Fail3164 ThmFail3164.
Local Open Scope Z_scope.

Lemma good m data msg : grammar (config_of m) data msg -> snd (parse m data) = Ret (Some msg) None.
Proof. apply parse3164_grammar_accepted. Qed.
Lemma bad m data x e : bestEffort m = true -> fails (config_of m) data x e -> snd (parse m data) = Ret x e.
Proof. intros Hb H. apply (parse3164_fails m data x e). exists x. rewrite Hb. auto. Qed.
Lemma returned m data msg e : snd (parse m data) = Ret (Some msg) e -> (e = None /\ grammar (config_of m) data msg) \/ (bestEffort m = true /\ fails (config_of m) data (Some msg) e).
Proof.
  intros H. destruct (spec3164 (config_of m) data) as [o|x e'] eqn:E.
  - assert (G : grammar (config_of m) data (export o)) by (apply spec_grammar; eauto). pose proof (good m _ _ G) as G'. rewrite H in G'. injection G' as -> ->. auto.
  - assert (N : ~ exists g, grammar (config_of m) data g) by (intros [g G]; apply spec_grammar in G as [o [G _]]; congruence).
    destruct (proj1 (parse3164_fails m data (Some msg) e) (conj H N)) as [y [F Y]]. destruct (bestEffort m); [subst y; auto|discriminate].
Qed.
Lemma no_control_or s : no_control s \/ ~ no_control s.
Proof. destruct (has_ctl s) eqn:E; [right; rewrite <- has_ctl_false; congruence|left; apply has_ctl_false, E]. Qed.

(* The text up to the space after the host name can be read: priority, timestamp and host name are in the message,
   whatever follows *)
Theorem best3164_keeps_header m pri p ts t host rest : bestEffort m = true -> pri_text pri p -> ts_field (config_of m) ts t -> word 255 host ->
  exists msg e, snd (parse m (lit "<" ++ pri ++ lit ">" ++ ts ++ lit " " ++ host ++ lit " " ++ rest)) = Ret (Some msg) e
    /\ priority msg = Some p /\ facility msg = Some (p / 8) /\ severity msg = Some (p mod 8) /\ timestamp msg = Some t /\ hostname msg = text_value host.
Proof.
  intros Hb Hp Ht Hh. rewrite (proj1 (parse_spec m _)), Hb. unfold spec3164.
  change (lit "<" ++ pri ++ lit ">" ++ ts ++ lit " " ++ host ++ lit " " ++ rest) with ("<"%byte :: pri ++ ">"%byte :: ts ++ " "%byte :: host ++ " "%byte :: rest).
  rewrite (p_pri_at _ pri p _ Hp), (p_ts_at _ _ _ _ ts t _ Ht), (p_host_at p_msg _ _ host rest Hh).
  match goal with |- context [p_msg ?o ?q ?r] => pose proof (p_msg_kept o q r) as K; destruct (p_msg o q r) as [o2|[o2|] e] end; cbn [kept ret_of] in *; [| |destruct K].
  all: destruct K as [K1 [K2 [K3 [K4 K5]]]]; cbn in K1, K2, K3, K4, K5; do 2 eexists; split; [reflexivity|]; unfold export; cbn [priority facility severity timestamp hostname]; rewrite ?K1, ?K2, ?K3, ?K4, ?K5; cbn; repeat split; reflexivity.
Qed.

(* the start of a message part that gives a tag: the tag and what follows it, the process id being pid *)
Definition tagged (tail tag pid : bytes) : Prop :=
  (exists r, tail = tag ++ lit ":" ++ r /\ pid = []) \/ exists r, tail = tag ++ lit "[" ++ r /\ bracketed r pid.
Lemma last_text_any r : exists x, last_text r x.
Proof. destruct (p_cont_spec r [] [] (pri_msg 0)) as [x [y [A _]]]; [apply last_text_nil_self|left; split; [intros []|reflexivity]|]. exists x. exact A. Qed.

(* ... and a tag of 1 to 32 characters after it: the tag, and the process id that follows it in brackets, are kept too,
   whatever else follows *)
Theorem best3164_keeps_tag m pri p ts t host tag tail pid : bestEffort m = true -> pri_text pri p -> ts_field (config_of m) ts t -> word 255 host ->
  tag_text tag -> tagged tail tag pid ->
  exists msg e, snd (parse m (lit "<" ++ pri ++ lit ">" ++ ts ++ lit " " ++ host ++ lit " " ++ tail)) = Ret (Some msg) e
    /\ hostname msg = text_value host /\ appname msg = text_value tag /\ procID msg = text_value pid.
Proof.
  intros Hb Hp Ht Hh Hg H.
  assert (G : forall text, msg_part tail tag pid text -> exists msg e, snd (parse m (lit "<" ++ pri ++ lit ">" ++ ts ++ lit " " ++ host ++ lit " " ++ tail)) = Ret (Some msg) e
    /\ hostname msg = text_value host /\ appname msg = text_value tag /\ procID msg = text_value pid).
  { intros text M. do 2 eexists. split; [apply good; exists pri, ts, host, tail, p, t, tag, pid, text; repeat (split; [solve [eauto]|]); reflexivity|]. cbn. auto. }
  assert (F : msg_fails tail tag pid -> exists msg e, snd (parse m (lit "<" ++ pri ++ lit ">" ++ ts ++ lit " " ++ host ++ lit " " ++ tail)) = Ret (Some msg) e
    /\ hostname msg = text_value host /\ appname msg = text_value tag /\ procID msg = text_value pid).
  { intros M. do 2 eexists. split; [apply (bad m _ _ _ Hb), (fl_msg _ pri p ts t host tail tag pid); assumption|]. cbn. auto. }
  destruct H as [[r [-> ->]]|[r [-> Hr]]].
  - destruct (no_control_or r) as [N|N]; [|apply F, mf_colon; assumption].
    destruct r as [|a [|b r]].
    + apply (G (tag ++ lit ":" ++ [])), mp_colon_other; [assumption..|]. intros x Hx E. discriminate.
    + apply (G (tag ++ lit ":" ++ [a])), mp_colon_other; [assumption..|]. intros x Hx E. injection E as _ E. congruence.
    + destruct (byte_eq_dec a " "%byte) as [->|Na].
      * apply (G (b :: r)). change (tag ++ lit ":" ++ " "%byte :: b :: r) with (tag ++ lit ": " ++ b :: r). apply mp_colon; [assumption|discriminate|inversion N; assumption].
      * apply (G (tag ++ lit ":" ++ a :: b :: r)), mp_colon_other; [assumption..|]. intros x Hx E. injection E as E _. contradiction.
  - destruct r as [|a r].
    + assert (pid = []) as -> by (destruct Hr as [[_ E]|[u [v [E _]]]]; [exact E|destruct u; discriminate]). apply (G (tag ++ lit "[")). apply mp_open, Hg.
    + destruct (last_text_any (a :: r)) as [x X]. destruct (no_control_or x) as [N|N]; [apply (G x), mp_bracket; try assumption; discriminate|apply F, (mf_bracket _ _ _ x); assumption].
Qed.

Lemma tag_nonempty : ~ tag_text []. Proof. intros [T _]. cbn in T. lia. Qed.
Lemma msg_tagged tail tag pid text : msg_part tail tag pid text -> (tag = [] /\ pid = []) \/ (tag_text tag /\ tagged tail tag pid).
Proof.
  unfold tagged. intros [s _ _ _|g x Hg _ _|g r Hg _ _|g Hg|g r q x Hg _ _ _ Hq]; [auto|right; split; [exact Hg|]..].
  - left. exists (" "%byte :: x). auto.
  - left. eauto.
  - right. exists []. split; [reflexivity|]. left. split; [intros []|reflexivity].
  - right. eauto.
Qed.
Lemma fails_tagged tail tag pid : msg_fails tail tag pid -> (tag = [] /\ pid = []) \/ (tag_text tag /\ tagged tail tag pid).
Proof. unfold tagged. intros [b s _ _ _|g r Hg _|g r q x Hg _ _ Hq]; [auto|right; split; [exact Hg|eauto]..]. Qed.

(* Conversely nothing is invented: every field of a message best effort (or strict) mode returns is read from the text at
   its place, the fields before it having been read, and the message text is there only if the whole input is accepted *)
Theorem best3164_only_read m data msg e : snd (parse m data) = Ret (Some msg) e ->
  (forall t, timestamp msg = Some t -> exists pri p ts r, data = lit "<" ++ pri ++ lit ">" ++ ts ++ lit " " ++ r /\ pri_text pri p /\ priority msg = Some p /\ ts_field (config_of m) ts t)
  /\ (forall h, hostname msg = Some h -> exists pri p ts t r, data = lit "<" ++ pri ++ lit ">" ++ ts ++ lit " " ++ h ++ lit " " ++ r /\ pri_text pri p /\ priority msg = Some p /\ ts_field (config_of m) ts t /\ timestamp msg = Some t /\ word 255 h)
  /\ (forall tag, appname msg = Some tag -> exists pri p ts t host tail pid, data = lit "<" ++ pri ++ lit ">" ++ ts ++ lit " " ++ host ++ lit " " ++ tail /\ pri_text pri p /\ priority msg = Some p /\ ts_field (config_of m) ts t /\ timestamp msg = Some t /\ word 255 host /\ hostname msg = text_value host
       /\ tag_text tag /\ tagged tail tag pid /\ procID msg = text_value pid)
  /\ (forall pid, procID msg = Some pid -> exists pri ts host tag tail, data = lit "<" ++ pri ++ lit ">" ++ ts ++ lit " " ++ host ++ lit " " ++ tail /\ tag_text tag /\ tagged tail tag pid /\ appname msg = text_value tag)
  /\ (forall x, M3164.msg msg = Some x -> e = None /\ grammar (config_of m) data msg).
Proof.
  intros H. assert (V : forall w x, text_value w = Some x -> w = x /\ x <> []).
  { unfold text_value. intros w x. destruct (bseqb w (lit "-")); [discriminate|]. destruct w; cbn [orb bseqb]; [discriminate|]. intros E. injection E as <-. split; [reflexivity|discriminate]. }
  destruct (returned m data msg e H) as [[-> G]|[_ F]].
  - split; [|split; [|split; [|split; [|auto]]]].
    all: pose proof G as (pri & ts & host & tail & p & t & tag & pid & text & -> & Hp & Ht & Hh & M & ->); cbn [timestamp hostname appname procID priority].
    + intros t' E. injection E as <-. exists pri, p, ts, (host ++ lit " " ++ tail). auto 8.
    + intros h E. apply V in E as [E _]. subst h. exists pri, p, ts, t, tail. auto 10.
    + intros g E. apply V in E as [E N]. subst g. destruct (msg_tagged _ _ _ _ M) as [[-> _]|[X Y]]; [congruence|]. exists pri, p, ts, t, host, tail, pid. auto 12.
    + intros g E. apply V in E as [E N]. subst g. destruct (msg_tagged _ _ _ _ M) as [[_ ->]|[X Y]]; [congruence|]. exists pri, ts, host, tag, tail. auto 12.
  - remember (Some msg) as x eqn:Ex. destruct F as [b _|b _|w v b _ _ _|pri p g b k Hp Hk|pri p s b Hp _ _|pri p ts t w b Hp Ht _ _|pri p ts t host b Hp Ht Hh _|pri p ts t host tail tag pid Hp Ht Hh M].
    1,2: discriminate.
    1: { assert (exists q, msg = start q) as [q ->] by (destruct b; [destruct w as [|? [|? ?]]; try discriminate|]; injection Ex as <-; eauto). cbn. repeat split; discriminate. }
    1,2: injection Ex as <-; cbn; repeat split; discriminate.
    all: injection Ex as <-; split; [|split; [|split; [|split; [|cbn; discriminate]]]]; cbn [timestamp hostname appname procID priority with_ts with_host with_tag start]; try discriminate.
    + intros t' E. injection E as <-. exists pri, p, ts, (w ++ b). auto 8.
    + intros t' E. injection E as <-. exists pri, p, ts, (host ++ lit " " ++ b). auto 8.
    + intros h E. apply V in E as [E _]. subst h. exists pri, p, ts, t, b. auto 10.
    + intros t' E. injection E as <-. exists pri, p, ts, (host ++ lit " " ++ tail). auto 8.
    + intros h E. apply V in E as [E _]. subst h. exists pri, p, ts, t, tail. auto 10.
    + intros g E. apply V in E as [E N]. subst g. destruct (fails_tagged _ _ _ M) as [[-> _]|[X Y]]; [congruence|]. exists pri, p, ts, t, host, tail, pid. auto 12.
    + intros g E. apply V in E as [E N]. subst g. destruct (fails_tagged _ _ _ M) as [[_ ->]|[X Y]]; [congruence|]. exists pri, ts, host, tag, tail. auto 12.
Qed.
(* the hypotheses are met, in accepted and in rejected texts; nothing after a broken part is kept *)
Ltac nums := unfold Grammar5424.pri_text, Grammar5424.plain_number, Grammar5424.word, Grammar5424.num; cbn; repeat match goal with |- _ /\ _ => split | |- Forall _ _ => constructor | |- _ \/ _ => first [left; reflexivity|right; do 2 eexists; split; [reflexivity|discriminate]] end; unfold Spec5424.len, digit, Grammar5424.printable, control; cbn; try reflexivity; try lia; try (vm_compute; discriminate).
Example best3164_keeps_ex : exists t, ts_field plain (lit "Oct 11 22:14:15") t /\ pri_text (lit "34") 34 /\ word 255 (lit "h") /\ tag_text (lit "su")
  /\ tagged (lit "su[77]: a" ++ ["009"%byte]) (lit "su") (lit "77")
  /\ snd (parse (new_machine true plain) (lit "<34>Oct 11 22:14:15 h su[77]: a" ++ ["009"%byte])) = Ret (Some (Message (Some 4) (Some 2) (Some 34) (Some t) (Some (lit "h")) (Some (lit "su")) (Some (lit "77")) None)) None
  /\ exists e, snd (parse (new_machine true plain) (lit "<34>Oct 11 22:14:61 h su[77]: a")) = Ret (Some (start 34)) (Some e).
Proof.
  exists (stamp_value plain (Stamp 10 11 22 14 15)). split; [|split; [|split; [|split; [|split; [|split]]]]].
  - left. exists (Stamp 10 11 22 14 15). split; [|reflexivity]. exists (lit "Oct"), (lit "11"), (lit "22"), (lit "14"), (lit "15"). split; [reflexivity|]. split; [cbn; tauto|].
    split; [left; nums|]. nums.
  - nums.
  - nums.
  - split; [cbn; lia|]. repeat constructor; try discriminate; unfold Grammar5424.printable; cbn; lia.
  - right. exists (lit "77]: a" ++ ["009"%byte]). split; [reflexivity|]. right. exists (lit "77"), (lit ": a" ++ ["009"%byte]). split; [reflexivity|]. split; [cbn; intuition discriminate|].
    right. split; [|reflexivity]. intros m2 [a [x [y [E _]]]]. destruct a as [|? [|? [|? a]]]; discriminate.
  - vm_compute. reflexivity.
  - eexists. vm_compute. reflexivity.
Qed.
