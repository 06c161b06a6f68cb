(* rfc5424/builder.go: builders used by several goroutines.  The package variables currentid and currentparamname
   (builder.go:64-65) are shared by all messages. *)
From Verif Require Import Bytes GoMap Common M5424Def M5424 Grammar5424 BuilderBaseDef ABuilder MBuilder RefBuilder ThmBuilder.
Local Open Scope Z_scope.

(* ---- atomic calls on many messages ---- *)
Definition world := nat -> message.
Definition put (w : world) (i : nat) (m : message) : world := fun j => if Nat.eqb j i then m else w j.
(* calls of the builder, each executed without interruption, on the message with the given number *)
Fixpoint run_calls (g : globals) (w : world) (sched : list (nat * call)) : option (globals * world) :=
  match sched with
  | [] => Some (g, w)
  | (i, c) :: r => match step g (w i) c with Some (g', m') => run_calls g' (put w i m') r | None => None end
  end.
Definition calls_of (i : nat) (sched : list (nat * call)) : list call := map snd (filter (fun ic => Nat.eqb (fst ic) i) sched).

(* the new message does not depend on the package variables *)
Lemma bset_globals e g1 g2 m v : e <> EpSdpn -> e <> EpSdpv -> bset e g1 m v = bset e g2 m v.
Proof.
  intros N1 N2. destruct e; try congruence.
  - rewrite !bset_ts. reflexivity.
  - change EpHostname with (word_ep WHost). rewrite !bset_word. reflexivity.
  - change EpAppname with (word_ep WApp). rewrite !bset_word. reflexivity.
  - change EpProcid with (word_ep WProc). rewrite !bset_word. reflexivity.
  - change EpMsgid with (word_ep WMsgid). rewrite !bset_word. reflexivity.
  - change EpSdid with (word_ep WId). rewrite !bset_word. reflexivity.
  - rewrite !bset_msg. reflexivity.
Qed.
Lemma bset_currentid e g1 g2 m v : e <> EpSdpv -> currentid g1 = currentid g2 -> bset e g1 m v = bset e g2 m v.
Proof.
  intros N E. destruct e; try (apply bset_globals; congruence); try congruence.
  change EpSdpn with (word_ep WPn). rewrite !bset_word. unfold wstore. rewrite E. reflexivity.
Qed.
Definition omsg (r : option (globals * message)) : option message := match r with Some (_, m) => Some m | None => None end.
Lemma step_globals g1 g2 m c : omsg (step g1 m c) = omsg (step g2 m c).
Proof.
  destruct c; cbn [step]; try reflexivity;
    try (match goal with |- omsg (with_g _ (bset ?e _ _ _)) = _ => rewrite (bset_globals e g1 g2) by discriminate end; match goal with |- context[bset ?e g2 ?m ?v] => destruct (bset e g2 m v); reflexivity end).
  unfold set_parameter. rewrite (bset_globals EpSdid g1 g2) by discriminate. destruct (bset EpSdid g2 m id) as [m1|]; [|reflexivity].
  destruct (structuredData m1) as [s|]; [|reflexivity]. destruct (mget s id); [|reflexivity].
  rewrite (bset_currentid EpSdpn (Globals id (currentparamname g1)) (Globals id (currentparamname g2))) by (discriminate || reflexivity).
  destruct (bset EpSdpn _ m1 name) as [m2|]; [|reflexivity]. destruct (mget _ name); [|reflexivity]. destruct (bset EpSdpv _ m2 v); reflexivity.
Qed.
Lemma steps_globals cs : forall g1 g2 m, omsg (steps g1 m cs) = omsg (steps g2 m cs).
Proof.
  induction cs as [|c r IH]; intros g1 g2 m; [reflexivity|]. cbn [steps]. pose proof (step_globals g1 g2 m c) as H.
  destruct (step g1 m c) as [[g1' m1]|], (step g2 m c) as [[g2' m2]|]; cbn in H; try discriminate; [|reflexivity]. injection H as ->. apply IH.
Qed.

(* C24, calls not overlapping in time: every message ends as if its own calls had been made alone *)
Theorem builders_independent_sequential sched : forall g w, exists g' w', run_calls g w sched = Some (g', w')
  /\ forall i g0, exists g1, steps g0 (w i) (calls_of i sched) = Some (g1, w' i).
Proof.
  induction sched as [|[i c] r IH]; intros g w.
  - exists g, w. split; [reflexivity|]. intros i g0. exists g0. reflexivity.
  - cbn [run_calls]. pose proof (set_never_panics g (w i) c) as Hn. destruct (step g (w i) c) as [[g1 m1]|] eqn:Es; [|congruence].
    destruct (IH g1 (put w i m1)) as [g' [w' [E H]]]. exists g', w'. split; [exact E|]. intros j g0. unfold calls_of in *. cbn [filter fst].
    specialize (H j). unfold put in H. rewrite (Nat.eqb_sym i j). destruct (Nat.eqb_spec j i) as [Heq|Hne]; [subst j|].
    + cbn [map snd steps]. pose proof (step_globals g0 g (w i) c) as Hg. rewrite Es in Hg. destruct (step g0 (w i) c) as [[g2 m2]|]; [|discriminate].
      cbn in Hg. injection Hg as ->. apply H.
    + apply H.
Qed.

(* ---- overlapping calls: small steps ---- *)
(* A goroutine owns one message.  TRun: about to make the next call; the other states are inside SetParameter
   (rfc5424/builder.go:9321-9344), named after the statement executed next.  One "set" is taken as one step. *)
Inductive thread :=
| TRun (m : message) (cs : list call)
| TId (id name v : bytes) (m : message) (cs : list call)       (* currentid = id *)
| TName (id name v : bytes) (m : message) (cs : list call)     (* sm.set(sdpn, name) *)
| TPname (id name v : bytes) (m : message) (cs : list call)    (* currentparamname = name *)
| TVal (id name v : bytes) (m : message) (cs : list call)      (* sm.set(sdpv, value) *)
| TPanic.

Definition tstep (g : globals) (t : thread) : globals * thread :=
  match t with
  | TRun m [] => (g, t)
  | TRun m (SetParameter id name v :: cs) =>
      match bset EpSdid g m id with
      | None => (g, TPanic)
      | Some m1 => match mget (sd_read (structuredData m1)) id with
                   | None => (g, TRun m1 cs)
                   | Some _ => (g, TId id name v m1 cs) end
      end
  | TRun m (c :: cs) => match step g m c with Some (g', m') => (g', TRun m' cs) | None => (g, TPanic) end
  | TId id name v m cs => (Globals id (currentparamname g), TName id name v m cs)
  | TName id name v m cs =>
      match bset EpSdpn g m name with
      | None => (g, TPanic)
      | Some m2 => match mget (match mget (sd_read (structuredData m2)) id with Some e => e | None => [] end) name with
                   | None => (g, TRun m2 cs)
                   | Some _ => (g, TPname id name v m2 cs) end
      end
  | TPname id name v m cs => (Globals (currentid g) name, TVal id name v m cs)
  | TVal id name v m cs => match bset EpSdpv g m v with Some m3 => (g, TRun m3 cs) | None => (g, TPanic) end
  | TPanic => (g, TPanic)
  end.

(* a schedule: the numbers of the goroutines, in the order of their steps; the list of all configurations reached *)
Definition config := (globals * (nat -> thread))%type.
Definition cstep (c : config) (i : nat) : config :=
  let (g', t') := tstep (fst c) (snd c i) in (g', fun j => if Nat.eqb j i then t' else snd c j).
Fixpoint crun (c : config) (s : list nat) : config := match s with [] => c | i :: r => crun (cstep c i) r end.

Definition inside (t : thread) : Prop := match t with TId _ _ _ _ _ | TName _ _ _ _ _ | TPname _ _ _ _ _ | TVal _ _ _ _ _ => True | _ => False end.
(* at most one goroutine is inside SetParameter *)
Definition exclusive (c : config) : Prop := forall i j, inside (snd c i) -> inside (snd c j) -> i = j.
(* ... at every point of the run *)
Fixpoint exclusive_run (c : config) (s : list nat) : Prop :=
  exclusive c /\ match s with [] => True | i :: r => exclusive_run (cstep c i) r end.

(* the outcome of a goroutine left alone from here on, provided the package variables are the ones it wrote *)
Definition alone (m0 : option message) (cs : list call) : option message :=
  match m0 with Some m => omsg (steps (Globals [] []) m cs) | None => None end.
Definition outcome (t : thread) : option message :=
  match t with
  | TRun m cs => alone (Some m) cs
  | TId id name v m cs | TName id name v m cs =>
      alone (match bset EpSdpn (Globals id []) m name with
             | None => None
             | Some m2 => match mget (match mget (sd_read (structuredData m2)) id with Some e => e | None => [] end) name with
                          | None => Some m2
                          | Some _ => bset EpSdpv (Globals id name) m2 v end end) cs
  | TPname id name v m cs | TVal id name v m cs => alone (bset EpSdpv (Globals id name) m v) cs
  | TPanic => None
  end.
Definition mine (g : globals) (t : thread) : Prop :=
  match t with
  | TName id _ _ _ _ | TPname id _ _ _ _ => currentid g = id
  | TVal id name _ _ _ => g = Globals id name
  | _ => True end.

Lemma alone_step g m c cs g' m' : step g m c = Some (g', m') -> alone (Some m') cs = alone (Some m) (c :: cs).
Proof.
  intros H. unfold alone. cbn [steps]. pose proof (step_globals g (Globals [] []) m c) as Hg. rewrite H in Hg.
  destruct (step (Globals [] []) m c) as [[g2 m2]|]; [|discriminate]. cbn in Hg. injection Hg as ->. apply steps_globals.
Qed.
Lemma tstep_outcome g t : mine g t -> outcome (snd (tstep g t)) = outcome t /\ mine (fst (tstep g t)) (snd (tstep g t))
  /\ (~ inside t -> fst (tstep g t) = g).
Proof.
  intros Hm. destruct t as [m [|c cs]|id name v m cs|id name v m cs|id name v m cs|id name v m cs|]; cbn [tstep]; try (cbn; tauto).
  - assert (Hc : (exists id name v, c = SetParameter id name v) \/ match c with SetParameter _ _ _ => False | _ => True end) by (destruct c; auto; left; eauto).
    destruct Hc as [[id [name [v ->]]]|Hc].
    + cbn [outcome]. unfold alone. cbn [steps step]. unfold set_parameter. rewrite (bset_globals EpSdid (Globals [] []) g) by discriminate.
      destruct (bset EpSdid g m id) as [m1|]; [|cbn; auto]. destruct (structuredData m1) as [s|] eqn:Es; cbn [sd_read].
      * destruct (mget s id) as [e|]; [|cbn; split; [|auto]; apply steps_globals]. cbn [fst snd outcome mine]. split; [|auto].
        cbn [currentparamname]. destruct (bset EpSdpn (Globals id []) m1 name) as [m2|]; [|reflexivity].
        destruct (mget _ name); [|apply steps_globals]. destruct (bset EpSdpv (Globals id name) m2 v); [apply steps_globals|reflexivity].
      * cbn [mget]. cbn. split; [|auto]. apply steps_globals.
    + assert (Ht : tstep g (TRun m (c :: cs)) = match step g m c with Some (g', m') => (g', TRun m' cs) | None => (g, TPanic) end) by (destruct c; tauto).
      cbn [tstep] in Ht. destruct (step g m c) as [[g' m']|] eqn:Es; [|destruct (set_never_panics g m c Es)].
      replace (match c with SetParameter id name v => _ | _ => _ end) with (g', TRun m' cs) by (symmetry; exact Ht).
      cbn [fst snd outcome]. split; [|split; [exact I|]].
      * symmetry. rewrite <- (alone_step g m c cs g' m' Es). reflexivity.
      * intros _. destruct c; cbn [step] in Es; try (injection Es as <- _; reflexivity); try (destruct Hc);
          match type of Es with with_g g ?x = _ => destruct x; [injection Es as <- _; reflexivity|discriminate] end.
  - cbn [outcome mine] in *. rewrite (bset_currentid EpSdpn (Globals id []) g) by (discriminate || (cbn; congruence)).
    destruct (bset EpSdpn g m name) as [m2|]; [|cbn; split; [reflexivity|tauto]]. destruct (mget _ name); cbn [fst snd outcome mine]; cbn [inside]; (split; [reflexivity|tauto]).
  - cbn [outcome mine inside fst snd] in *. subst id. split; [reflexivity|split; [reflexivity|tauto]].
  - cbn [outcome mine inside fst snd] in *. subst g. destruct (bset EpSdpv (Globals id name) m v); cbn [fst snd outcome mine]; cbn [inside]; (split; [reflexivity|tauto]).
Qed.

(* C24, overlapping calls: when no two goroutines are inside SetParameter at the same time, whatever the other
   calls and the schedule, every message ends as if its own calls had been made alone *)
Theorem builders_independent_exclusive s : forall c, exclusive_run c s -> (forall i, mine (fst c) (snd c i)) ->
  forall i, outcome (snd (crun c s) i) = outcome (snd c i).
Proof.
  induction s as [|k r IH]; intros c Hx Hm i; [reflexivity|]. cbn [crun]. destruct Hx as [Hx Hr].
  pose proof (tstep_outcome (fst c) (snd c k) (Hm k)) as [Ho [Hk Hg]].
  rewrite IH.
  - unfold cstep. destruct (tstep (fst c) (snd c k)) as [g' t']. cbn [snd]. destruct (Nat.eqb_spec i k) as [->|]; [exact Ho|reflexivity].
  - exact Hr.
  - assert (Hx' : exclusive (cstep c k)) by (destruct r; apply Hr). intros j.
    unfold cstep in *. destruct (tstep (fst c) (snd c k)) as [g' t'] eqn:Et. cbn [fst snd] in *. destruct (Nat.eqb_spec j k) as [->|Hne]; [exact Hk|].
    assert (Hj : inside (snd c j) \/ ~ inside (snd c j)) by (destruct (snd c j); cbn; tauto). destruct Hj as [Hj|Hj].
    + assert (Hnk : ~ inside (snd c k)) by (intros Hk'; apply Hne, Hx; assumption). rewrite (Hg Hnk). apply Hm.
    + destruct (snd c j); cbn in *; tauto.
Qed.
(* goroutines that have not started, and one that has finished *)
Corollary builders_independent_finished s g (ms : nat -> message) (css : nat -> list call) i m :
  exclusive_run (g, fun j => TRun (ms j) (css j)) s -> snd (crun (g, fun j => TRun (ms j) (css j)) s) i = TRun m [] ->
  omsg (steps (Globals [] []) (ms i) (css i)) = Some m.
Proof.
  intros Hx E. pose proof (builders_independent_exclusive s _ Hx (fun j => I) i) as H. rewrite E in H. cbn [snd outcome alone steps omsg] in H.
  symmetry. exact H.
Qed.
Corollary builders_no_panic_exclusive s g (ms : nat -> message) (css : nat -> list call) i :
  exclusive_run (g, fun j => TRun (ms j) (css j)) s -> snd (crun (g, fun j => TRun (ms j) (css j)) s) i <> TPanic.
Proof.
  intros Hx E. pose proof (builders_independent_exclusive s _ Hx (fun j => I) i) as H. rewrite E in H. cbn [snd outcome alone] in H.
  pose proof (history_never_panics (css i) (Globals [] []) (ms i)). destruct (steps (Globals [] []) (ms i) (css i)) as [[]|]; [discriminate|congruence].
Qed.
(* calls other than SetParameter may overlap with anything *)
Fixpoint no_parameter (cs : list call) : Prop := match cs with [] => True | SetParameter _ _ _ :: _ => False | _ :: r => no_parameter r end.
Definition quiet (t : thread) : Prop := match t with TRun _ cs => no_parameter cs | TPanic => True | _ => False end.
Lemma quiet_step g t : quiet t -> quiet (snd (tstep g t)).
Proof.
  destruct t as [m [|c cs]| | | | |]; cbn; try tauto. intros H. destruct c; cbn [tstep]; try tauto;
   match goal with |- context[step g m ?c] => destruct (step g m c) as [[]|]; cbn; auto | _ => idtac end.
Qed.
(* when at most one goroutine ever uses SetParameter no schedule matters *)
Theorem one_parameter_user_independent s : forall c k, (forall i, i <> k -> quiet (snd c i)) -> (forall i, mine (fst c) (snd c i)) ->
  forall i, outcome (snd (crun c s) i) = outcome (snd c i).
Proof.
  intros c k Hq Hm. apply builders_independent_exclusive; [|exact Hm]. clear Hm. revert c Hq. induction s as [|n r IH]; intros c Hq.
  - split; [|exact I]. intros i j Hi Hj. destruct (Nat.eq_dec i k) as [->|Hik]; [destruct (Nat.eq_dec j k) as [->|Hjk]; [reflexivity|]|].
    + specialize (Hq j Hjk). destruct (snd c j); cbn in *; tauto.
    + specialize (Hq i Hik). destruct (snd c i); cbn in *; tauto.
  - split.
    + intros i j Hi Hj. destruct (Nat.eq_dec i k) as [->|Hik]; [destruct (Nat.eq_dec j k) as [->|Hjk]; [reflexivity|]|].
      * specialize (Hq j Hjk). destruct (snd c j); cbn in *; tauto.
      * specialize (Hq i Hik). destruct (snd c i); cbn in *; tauto.
    + apply IH. intros i Hi. unfold cstep. pose proof (quiet_step (fst c) (snd c n)) as Hs. destruct (tstep (fst c) (snd c n)) as [g' t']. cbn [snd] in *.
      destruct (Nat.eqb_spec i n) as [->|]; auto.
Qed.

(* without the exclusion the claim is false: two goroutines, each adding one parameter to its own new message *)
Definition two (c0 c1 : list call) : config := (Globals [] [], fun i => TRun empty_message (match i with O => c0 | S O => c1 | _ => [] end)).
(* (1) a panic: assignment to an entry of a nil map *)
Theorem builders_race_panics_refuted : exists s,
  snd (crun (two [SetParameter (lit "a") (lit "x") (lit "1")] [SetParameter (lit "b") (lit "y") (lit "2")]) s) 0%nat = TPanic.
Proof. exists [0; 0; 1; 1; 0]%nat. vm_compute. reflexivity. Qed.
(* (2) a value stored under the parameter name chosen by the other goroutine *)
Theorem builders_race_mixes_refuted : exists s m, 
  snd (crun (two [SetParameter (lit "a") (lit "x") (lit "1")] [SetParameter (lit "a") (lit "y") (lit "2")]) s) 0%nat = TRun m []
  /\ mget (elem_contents m (lit "a")) (lit "x") = Some [] /\ mget (elem_contents m (lit "a")) (lit "y") = Some (lit "1").
Proof.
  exists [0; 0; 0; 0; 1; 1; 1; 1; 0]%nat. eexists. split; [vm_compute; reflexivity|]. vm_compute. auto.
Qed.
(* the exclusion hypothesis is met by a schedule that interleaves a SetParameter with other calls *)
Example exclusive_ex : exclusive_run (two [SetParameter (lit "a") (lit "x") (lit "1")] [SetHostname (lit "h"); SetElementID (lit "e")]) [0; 1; 0; 0; 1; 0; 0]%nat.
Proof.
  cbn [exclusive_run]. repeat (split; [intros [|[|i]] [|[|j]] Hi Hj; vm_compute in Hi, Hj; try reflexivity; try contradiction|]).  exact I.
Qed.
