(* The structured automaton of nontransparent/parser.go and the proof that the goto program (GenNT.v) behaves like it, for
   every state and every byte. *)
From Coq Require Import FMapPositive.
From Verif Require Import Bytes GotoLang M5424Def M5424 NonTransparentBaseDef GenNT.
Local Open Scope N_scope.

(* N0: error; N1: start; N2: inside a frame; N3: just after a trailer *)
Inductive nst := N0 | N1 | N2 | N3.
Definition nnum (s : nst) : N := match s with N0 => 0 | N1 => 1 | N2 => 2 | N3 => 3 end.
Notation ntr := (tree act cnd nst).

Definition nbegin : ntr := TIf CHasCandidate (TAct NProcess (TAct NCandReset (TNext N2))) (TAct NCandReset (TNext N2)).
Definition ninside (c : N) : ntr :=
  if c =? 10 then TIf CIsLF (TAct NCandAppend (TNext N3)) (TNext N2)
  else if c =? 0 then TIf CIsNUL (TAct NCandAppend (TNext N3)) (TNext N2)
  else TNext N2.
Definition ndelta (s : nst) (b : byte) : ntr :=
  let c := bN b in
  match s with
  | N0 => TOut 0
  | N1 => if c =? 60 then nbegin else TOut 0
  | N2 => ninside c
  | N3 => if c =? 60 then nbegin else ninside c
  end.
Definition nedelta (s : nst) : ntr := TOut (nnum s).
Definition nok (s : nst) : bool := match s with N2 | N3 => true | _ => false end.

Definition codeN := Eval vm_compute in link progNT.
Definition nteq := tree_eqb act_beq cnd_beq.
Lemma nteq_ok t u : nteq t u = true -> t = u.
Proof. apply tree_eqb_ok; [apply act_eqb_ok|apply cnd_eqb_ok]. Qed.

Definition check_nstate (s : nst) : bool :=
  st_shapeb codeN (nnum s)
  && forallb (fun b => nteq (tab codeN (nnum s) b) (tmap nnum (ndelta s b)) && tok nok (ndelta s b)) all_bytes
  && nteq (etab codeN (nnum s)) (tmap nnum (nedelta s)) && tok (fun _ => false) (nedelta s).
Lemma check_nall : forallb check_nstate [N2; N3] = true.
Proof. vm_compute. reflexivity. Qed.
Lemma simN : sim_ok codeN nnum nok ndelta nedelta.
Proof.
  intros s Hs. pose proof check_nall as H. eapply forallb_forall with (x := s) in H; [|destruct s; try discriminate Hs; cbn; tauto].
  unfold check_nstate in H. apply andb_true_iff in H as [H H4]. apply andb_true_iff in H as [H H3].
  apply andb_true_iff in H as [H1 H2].
  split; [apply st_shapeb_ok; exact H1|]. split; [|split; [apply nteq_ok; exact H3|exact H4]].
  intros b. pose proof (forall_bytes _ H2 b) as Hb. apply andb_true_iff in Hb as [Hb1 Hb2].
  split; [apply nteq_ok; exact Hb1|exact Hb2].
Qed.

(* every state can be the one Exec is entered with *)
Definition check_nentry (s : nst) : bool :=
  forallb (fun b => nteq (pevl codeN pev_fuel LEntry (Kn (KAt b) (Some (nnum s)) None)) (tmap nnum (ndelta s b)) && tok nok (ndelta s b)) all_bytes
  && nteq (pevl codeN pev_fuel LEntry (Kn KEnd (Some (nnum s)) None)) (tmap nnum (nedelta s)) && tok (fun _ => false) (nedelta s).
Lemma check_nentries : forallb check_nentry [N0; N1; N2; N3] = true.
Proof. vm_compute. reflexivity. Qed.
Lemma entryN s : entry_ok codeN nnum nok ndelta nedelta s.
Proof.
  assert (H : check_nentry s = true).
  { apply (proj1 (forallb_forall check_nentry _) check_nentries s). destruct s; cbn; tauto. }
  unfold check_nentry in H. apply andb_true_iff in H as [H H3]. apply andb_true_iff in H as [H1 H2].
  split; [|split; [apply nteq_ok; exact H2|exact H3]].
  intros b. pose proof (forall_bytes _ H1 b) as Hb. apply andb_true_iff in Hb as [Hb1 Hb2].
  split; [apply nteq_ok; exact Hb1|exact Hb2].
Qed.

Theorem exec_runN data s x w :
  exec sem_act sem_cnd codeN data (exec_fuel data) LEntry (G 0 (nnum s) w x) = arun sem_act sem_cnd ndelta nedelta data s 0 data x.
Proof. apply (exec_arun sem_act sem_cnd codeN nnum nok ndelta nedelta simN data s x w (entryN s)). Qed.
